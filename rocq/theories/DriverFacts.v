(** Correctness of the drivers of Drivers.v, from the k-ary one of KaryFacts.v. *)
From Coq Require Import ZArith List Lia Bool.
From Verif Require Import Base Mem Loop Backend Args Drivers Spec LoopFacts MemFacts KaryFacts.
Import ListNotations.
Local Open Scope Z_scope.

(** * Functors of fixed arity as functors on lists *)
Section Lift.
Context {X : Type} (d : X).
(** Proof auxiliary: a unary functor on a one-element list. *)
Definition fk1 (f : X -> X) (l : list X) : X :=
  match l with [x] => f x | _ => d end.
(** Proof auxiliary: a binary functor on a two-element list. *)
Definition fk2 (f : X -> X -> X) (l : list X) : X :=
  match l with [x; y] => f x y | _ => d end.
(** Proof auxiliary: a ternary functor on a list. *)
Definition fk3 (f : X -> X -> X -> X) (l : list X) : X :=
  match l with [x; y; z] => f x y z | _ => d end.
(** Proof auxiliary: a quaternary functor on a list. *)
Definition fk4 (f : X -> X -> X -> X -> X) (l : list X) : X :=
  match l with [x; y; z; w] => f x y z w | _ => d end.
End Lift.

Lemma sample_sval {A} (ar : arith A) d m a n i :
  0 <= i < n -> arg_accessible m a n -> sample ar m a i = Some (sval ar d m a i).
Proof.
  intros Hi Ha. unfold sval. destruct a as [p|x|b s]; cbn [sample]; try reflexivity.
  destruct (Ha i Hi) as [x Hx]. rewrite Hx. reflexivity.
Qed.

(** * Scalar drivers *)
Section Scalar.
Context {A : Type} (ar : arith A).

Lemma sbody1_embed d f s :
  sbodyk ar (fk1 d f) (let '(m, out, i) := s in (m, out, [APtr i]))
  = rmap (fun s => let '(m, out, i) := s in (m, out, [APtr i])) (sbody1 f s).
Proof.
  destruct s as [[m out] i]. cbn [sbodyk sbody1 mapM arg_get].
  destruct (load m i); cbn [bind rmap fk1]; [|reflexivity].
  destruct (store m out (f a)); reflexivity.
Qed.

Lemma ct_sbody1_embed d f s :
  sbodyk ar (fk1 d f) (let '(m, out, i) := s in (m, out, [i]))
  = rmap (fun s => let '(m, out, i) := s in (m, out, [i])) (ct_sbody1 ar f s).
Proof.
  destruct s as [[m out] i]. cbn [sbodyk ct_sbody1 mapM].
  destruct (arg_get m i); cbn [bind rmap fk1]; [|reflexivity].
  destruct (store m out (f a)); reflexivity.
Qed.

Lemma sbody2_embed d f s :
  sbodyk ar (fk2 d f) (let '(m, out, i, j) := s in (m, out, [i; j]))
  = rmap (fun s => let '(m, out, i, j) := s in (m, out, [i; j])) (sbody2 ar f s).
Proof.
  destruct s as [[[m out] i] j]. cbn [sbodyk sbody2 mapM].
  destruct (arg_get m i); cbn [bind rmap]; [|reflexivity].
  destruct (arg_get m j); cbn [bind rmap fk2]; [|reflexivity].
  destruct (store m out _); reflexivity.
Qed.

Lemma sbody3_embed d f s :
  sbodyk ar (fk3 d f) (let '(m, out, i, j, k) := s in (m, out, [i; j; k]))
  = rmap (fun s => let '(m, out, i, j, k) := s in (m, out, [i; j; k])) (sbody3 ar f s).
Proof.
  destruct s as [[[[m out] i] j] k]. cbn [sbodyk sbody3 mapM].
  destruct (arg_get m i); cbn [bind rmap]; [|reflexivity].
  destruct (arg_get m j); cbn [bind rmap]; [|reflexivity].
  destruct (arg_get m k); cbn [bind rmap fk3]; [|reflexivity].
  destruct (store m out _); reflexivity.
Qed.

Lemma sbody4_embed d f s :
  sbodyk ar (fk4 d f) (let '(m, out, i, j, k, h) := s in (m, out, [i; j; k; h]))
  = rmap (fun s => let '(m, out, i, j, k, h) := s in (m, out, [i; j; k; h])) (sbody4 ar f s).
Proof.
  destruct s as [[[[[m out] i] j] k] h]. cbn [sbodyk sbody4 mapM].
  destruct (arg_get m i); cbn [bind rmap]; [|reflexivity].
  destruct (arg_get m j); cbn [bind rmap]; [|reflexivity].
  destruct (arg_get m k); cbn [bind rmap]; [|reflexivity].
  destruct (arg_get m h); cbn [bind rmap fk4]; [|reflexivity].
  destruct (store m out _); reflexivity.
Qed.

(** The iterations, at each arity. *)
Lemma iter1_ok f m out inp k :
  (0 < k)%nat -> accessible m out (Z.of_nat k) -> accessible m inp (Z.of_nat k) ->
  @overlap_ok A out (APtr inp) (Z.of_nat k) ->
  exists m' s1 s2, iter_res k (sbody1 f) (m, out, inp) = Ok (m', s1, s2) /\
    writes_exactly m m' out (Z.of_nat k) (fun i => lift1 f (sample ar m (APtr inp) i)).
Proof.
  intros Hk Ho Hi Hov. destruct (Ho 0) as [d _]; [lia|].
  destruct (iter_sbodyk ar (fk1 d f) d m out [APtr inp] k) as (m' & E & G); auto.
  pose proof (iter_res_embed (sbody1 f) (sbodyk ar (fk1 d f)) _ (sbody1_embed d f) k (m, out, inp)) as R.
  cbn in R. rewrite E in R. destruct (iter_res k (sbody1 f) (m, out, inp)) as [[[m1 s1] s2]|]; [|discriminate].
  cbn in R. inversion R; subst. do 3 eexists. split; [reflexivity|].
  eapply writes_exactly_of_wr; [exact G|]. intros i H. cbv beta.
  rewrite (sample_sval ar d m (APtr inp) (Z.of_nat k) i); auto.
Qed.

Lemma ct_iter1_ok f m out a1 k :
  (0 < k)%nat -> accessible m out (Z.of_nat k) ->
  arg_accessible m a1 (Z.of_nat k) -> overlap_ok out a1 (Z.of_nat k) ->
  exists m' s1 s2, iter_res k (ct_sbody1 ar f) (m, out, a1) = Ok (m', s1, s2) /\
    writes_exactly m m' out (Z.of_nat k) (fun i => lift1 f (sample ar m a1 i)).
Proof.
  intros Hk Ho Hi Hov. destruct (Ho 0) as [d _]; [lia|].
  destruct (iter_sbodyk ar (fk1 d f) d m out [a1] k) as (m' & E & G); auto.
  pose proof (iter_res_embed (ct_sbody1 ar f) (sbodyk ar (fk1 d f)) _ (ct_sbody1_embed d f) k (m, out, a1)) as R.
  cbn in R. rewrite E in R. destruct (iter_res k (ct_sbody1 ar f) (m, out, a1)) as [[[m1 s1] s2]|]; [|discriminate].
  cbn in R. inversion R; subst. do 3 eexists. split; [reflexivity|].
  eapply writes_exactly_of_wr; [exact G|]. intros i H. cbv beta.
  rewrite (sample_sval ar d m a1 (Z.of_nat k) i); auto.
Qed.

Lemma iter2_ok f m out a1 a2 k :
  (0 < k)%nat -> accessible m out (Z.of_nat k) ->
  arg_accessible m a1 (Z.of_nat k) -> overlap_ok out a1 (Z.of_nat k) ->
  arg_accessible m a2 (Z.of_nat k) -> overlap_ok out a2 (Z.of_nat k) ->
  exists m' s1 s2 s3, iter_res k (sbody2 ar f) (m, out, a1, a2) = Ok (m', s1, s2, s3) /\
    writes_exactly m m' out (Z.of_nat k) (fun i => lift2 f (sample ar m a1 i) (sample ar m a2 i)).
Proof.
  intros Hk Ho H1 O1 H2 O2. destruct (Ho 0) as [d _]; [lia|].
  destruct (iter_sbodyk ar (fk2 d f) d m out [a1; a2] k) as (m' & E & G); auto.
  pose proof (iter_res_embed (sbody2 ar f) (sbodyk ar (fk2 d f)) _ (sbody2_embed d f) k (m, out, a1, a2)) as R.
  cbn in R. rewrite E in R.
  destruct (iter_res k (sbody2 ar f) (m, out, a1, a2)) as [[[[m1 s1] s2] s3]|]; [|discriminate].
  cbn in R. inversion R; subst. do 4 eexists. split; [reflexivity|].
  eapply writes_exactly_of_wr; [exact G|]. intros i H. cbv beta.
  rewrite (sample_sval ar d m a1 (Z.of_nat k) i), (sample_sval ar d m a2 (Z.of_nat k) i); auto.
Qed.

Lemma iter3_ok f m out a1 a2 a3 k :
  (0 < k)%nat -> accessible m out (Z.of_nat k) ->
  arg_accessible m a1 (Z.of_nat k) -> overlap_ok out a1 (Z.of_nat k) ->
  arg_accessible m a2 (Z.of_nat k) -> overlap_ok out a2 (Z.of_nat k) ->
  arg_accessible m a3 (Z.of_nat k) -> overlap_ok out a3 (Z.of_nat k) ->
  exists m' s1 s2 s3 s4, iter_res k (sbody3 ar f) (m, out, a1, a2, a3) = Ok (m', s1, s2, s3, s4) /\
    writes_exactly m m' out (Z.of_nat k)
      (fun i => lift3 f (sample ar m a1 i) (sample ar m a2 i) (sample ar m a3 i)).
Proof.
  intros Hk Ho H1 O1 H2 O2 H3 O3. destruct (Ho 0) as [d _]; [lia|].
  destruct (iter_sbodyk ar (fk3 d f) d m out [a1; a2; a3] k) as (m' & E & G); auto.
  pose proof (iter_res_embed (sbody3 ar f) (sbodyk ar (fk3 d f)) _ (sbody3_embed d f) k (m, out, a1, a2, a3)) as R.
  cbn in R. rewrite E in R.
  destruct (iter_res k (sbody3 ar f) (m, out, a1, a2, a3)) as [[[[[m1 s1] s2] s3] s4]|]; [|discriminate].
  cbn in R. inversion R; subst. do 5 eexists. split; [reflexivity|].
  eapply writes_exactly_of_wr; [exact G|]. intros i H. cbv beta.
  rewrite (sample_sval ar d m a1 (Z.of_nat k) i), (sample_sval ar d m a2 (Z.of_nat k) i),
    (sample_sval ar d m a3 (Z.of_nat k) i); auto.
Qed.

Lemma iter4_ok f m out a1 a2 a3 a4 k :
  (0 < k)%nat -> accessible m out (Z.of_nat k) ->
  arg_accessible m a1 (Z.of_nat k) -> overlap_ok out a1 (Z.of_nat k) ->
  arg_accessible m a2 (Z.of_nat k) -> overlap_ok out a2 (Z.of_nat k) ->
  arg_accessible m a3 (Z.of_nat k) -> overlap_ok out a3 (Z.of_nat k) ->
  arg_accessible m a4 (Z.of_nat k) -> overlap_ok out a4 (Z.of_nat k) ->
  exists m' s1 s2 s3 s4 s5,
    iter_res k (sbody4 ar f) (m, out, a1, a2, a3, a4) = Ok (m', s1, s2, s3, s4, s5) /\
    writes_exactly m m' out (Z.of_nat k)
      (fun i => lift4 f (sample ar m a1 i) (sample ar m a2 i) (sample ar m a3 i) (sample ar m a4 i)).
Proof.
  intros Hk Ho H1 O1 H2 O2 H3 O3 H4 O4. destruct (Ho 0) as [d _]; [lia|].
  destruct (iter_sbodyk ar (fk4 d f) d m out [a1; a2; a3; a4] k) as (m' & E & G); auto.
  pose proof (iter_res_embed (sbody4 ar f) (sbodyk ar (fk4 d f)) _ (sbody4_embed d f) k (m, out, a1, a2, a3, a4)) as R.
  cbn in R. rewrite E in R.
  destruct (iter_res k (sbody4 ar f) (m, out, a1, a2, a3, a4)) as [[[[[[m1 s1] s2] s3] s4] s5]|]; [|discriminate].
  cbn in R. inversion R; subst. do 6 eexists. split; [reflexivity|].
  eapply writes_exactly_of_wr; [exact G|]. intros i H. cbv beta.
  rewrite (sample_sval ar d m a1 (Z.of_nat k) i), (sample_sval ar d m a2 (Z.of_nat k) i),
    (sample_sval ar d m a3 (Z.of_nat k) i), (sample_sval ar d m a4 (Z.of_nat k) i); auto.
Qed.

Lemma two32_eq : two32 = 2 ^ 32. Proof. reflexivity. Qed.

Lemma unary_vec_ok f m out inp n :
  0 < n < 2 ^ 32 -> accessible m out n -> accessible m inp n -> @overlap_ok A out (APtr inp) n ->
  exists m', unary_vec f m out inp n = Ok m' /\
    writes_exactly m m' out n (fun i => lift1 f (sample ar m (APtr inp) i)).
Proof.
  intros Hn. rewrite <- two32_eq in Hn. intros. unfold unary_vec, apply_on_vector1.
  rewrite do_while_iter by lia.
  destruct (iter1_ok f m out inp (Z.to_nat n)) as (m' & s1 & s2 & E & G);
    rewrite ?Z2Nat.id by lia; auto; [lia|].
  rewrite E. cbn. rewrite Z2Nat.id in G by lia. eauto.
Qed.

Lemma binary_vec_ok f m out a1 a2 n :
  0 < n < 2 ^ 32 -> accessible m out n ->
  arg_accessible m a1 n -> overlap_ok out a1 n -> arg_accessible m a2 n -> overlap_ok out a2 n ->
  exists m', binary_vec ar f m out a1 a2 n = Ok m' /\
    writes_exactly m m' out n (fun i => lift2 f (sample ar m a1 i) (sample ar m a2 i)).
Proof.
  intros Hn. rewrite <- two32_eq in Hn. intros. unfold binary_vec, apply_on_vector2.
  rewrite do_while_iter by lia.
  destruct (iter2_ok f m out a1 a2 (Z.to_nat n)) as (m' & s1 & s2 & s3 & E & G);
    rewrite ?Z2Nat.id by lia; auto; [lia|].
  rewrite E. cbn. rewrite Z2Nat.id in G by lia. eauto.
Qed.

Lemma ternary_vec_ok f m out a1 a2 a3 n :
  0 < n < 2 ^ 32 -> accessible m out n ->
  arg_accessible m a1 n -> overlap_ok out a1 n -> arg_accessible m a2 n -> overlap_ok out a2 n ->
  arg_accessible m a3 n -> overlap_ok out a3 n ->
  exists m', ternary_vec ar f m out a1 a2 a3 n = Ok m' /\
    writes_exactly m m' out n
      (fun i => lift3 f (sample ar m a1 i) (sample ar m a2 i) (sample ar m a3 i)).
Proof.
  intros Hn. rewrite <- two32_eq in Hn. intros. unfold ternary_vec, apply_on_vector3.
  rewrite do_while_iter by lia.
  destruct (iter3_ok f m out a1 a2 a3 (Z.to_nat n)) as (m' & s1 & s2 & s3 & s4 & E & G);
    rewrite ?Z2Nat.id by lia; auto; [lia|].
  rewrite E. cbn. rewrite Z2Nat.id in G by lia. eauto.
Qed.

Lemma quaternary_vec_ok f m out a1 a2 a3 a4 n :
  0 < n < 2 ^ 32 -> accessible m out n ->
  arg_accessible m a1 n -> overlap_ok out a1 n -> arg_accessible m a2 n -> overlap_ok out a2 n ->
  arg_accessible m a3 n -> overlap_ok out a3 n -> arg_accessible m a4 n -> overlap_ok out a4 n ->
  exists m', quaternary_vec ar f m out a1 a2 a3 a4 n = Ok m' /\
    writes_exactly m m' out n
      (fun i => lift4 f (sample ar m a1 i) (sample ar m a2 i) (sample ar m a3 i) (sample ar m a4 i)).
Proof.
  intros Hn. rewrite <- two32_eq in Hn. intros. unfold quaternary_vec, apply_on_vector4.
  rewrite do_while_iter by lia.
  destruct (iter4_ok f m out a1 a2 a3 a4 (Z.to_nat n)) as (m' & s1 & s2 & s3 & s4 & s5 & E & G);
    rewrite ?Z2Nat.id by lia; auto; [lia|].
  rewrite E. cbn. rewrite Z2Nat.id in G by lia. eauto.
Qed.
End Scalar.

(** * Vector drivers *)
Lemma nth_map2 {X Y W} (f : X -> Y -> W) d1 d2 d : forall u v l,
  (l < length u)%nat -> (l < length v)%nat -> nth l (map2 f u v) d = f (nth l u d1) (nth l v d2).
Proof.
  induction u as [|x u IH]; intros [|y v] l Hu Hv; cbn in *; try lia.
  destruct l; [reflexivity|]. apply IH; lia.
Qed.

Lemma map3_length {X Y Z W} (f : X -> Y -> Z -> W) : forall u v w,
  length u = length v -> length u = length w -> length (map3 f u v w) = length u.
Proof. induction u; intros [|? v] [|? w]; cbn; intros; try discriminate; auto. Qed.

Lemma nth_map3 {X Y Z W} (f : X -> Y -> Z -> W) d1 d2 d3 d : forall u v w l,
  (l < length u)%nat -> (l < length v)%nat -> (l < length w)%nat ->
  nth l (map3 f u v w) d = f (nth l u d1) (nth l v d2) (nth l w d3).
Proof.
  induction u as [|x u IH]; intros [|y v] [|z w] l Hu Hv Hw; cbn in *; try lia.
  destruct l; [reflexivity|]. apply IH; lia.
Qed.

Lemma map4_length {X Y Z W V} (f : X -> Y -> Z -> W -> V) : forall u v w x,
  length u = length v -> length u = length w -> length u = length x ->
  length (map4 f u v w x) = length u.
Proof. induction u; intros [|? v] [|? w] [|? x]; cbn; intros; try discriminate; auto. Qed.

Lemma nth_map4 {X Y Z W V} (f : X -> Y -> Z -> W -> V) d1 d2 d3 d4 d : forall u v w x l,
  (l < length u)%nat -> (l < length v)%nat -> (l < length w)%nat -> (l < length x)%nat ->
  nth l (map4 f u v w x) d = f (nth l u d1) (nth l v d2) (nth l w d3) (nth l x d4).
Proof.
  induction u as [|? u IH]; intros [|? v] [|? w] [|? x] l Hu Hv Hw Hx; cbn in *; try lia.
  destruct l; [reflexivity|]. apply IH; lia.
Qed.

Section Vector.
Context {A : Type} (ar : arith A) (B : backend).
Local Notation vec := (list A).
Local Notation step := (Z.of_nat (vsize B)).
Local Notation wrap := (wrap_vector_arg ar B).

Lemma set_slope_length b s : length (fst (set_slope ar B b s)) = vsize B.
Proof. destruct B; reflexivity. Qed.

(** Lane [l] of the [J]-th vector of an argument is the sample it should be. *)
Definition lanes_match (m : mem A) (a : arg A) (n : Z) : Prop :=
  forall d J l, (l < vsize B)%nat -> Z.of_nat J * step + Z.of_nat l < n ->
    nth l (vchunk ar B d m (wrap a) J) d = sval ar d m a (Z.of_nat J * step + Z.of_nat l).

(** Proof auxiliary: the argument is a pointer or a scalar. *)
Definition not_ramp (a : arg A) : Prop := match a with ARamp _ _ => False | _ => True end.

Lemma lanes_match_not_ramp m a n : not_ramp a -> lanes_match m a n.
Proof.
  intros Ha d J l Hl Hn. destruct a as [p|x|b s]; cbn [wrap_vector_arg vchunk]; [| |contradiction].
  - rewrite (nth_indep _ _ (cell d m (p + Z.of_nat J * step + Z.of_nat 0)))
      by (rewrite map_length, seq_length; lia).
    rewrite (map_nth (fun l => cell d m (p + Z.of_nat J * step + Z.of_nat l))), seq_nth by lia.
    unfold sval, cell. cbn [sample]. rewrite Z.add_assoc. reflexivity.
  - unfold sval; cbn [sample].
    rewrite (nth_indep _ _ x) by (rewrite repeat_length; lia). apply nth_repeat.
Qed.

Lemma wrap_ok m out N a n :
  n = Z.of_nat N * step ->
  arg_accessible m a n -> arg_aligned B a -> overlap_ok out a n -> varg_ok B m out N (wrap a).
Proof.
  intros -> Ha Hal Ho. destruct a as [p|x|b s]; cbn [wrap_vector_arg varg_ok] in *; auto.
  pose proof (set_slope_length b s) as HL.
  destruct (set_slope ar B b s) as [dat inc]. cbn [varg_ok]. split; [exact HL|apply repeat_length].
Qed.

(** Lane-wise functors of any arity. *)
Definition lanewisek (k : nat) (d : A) (fv : list vec -> vec) (fs : list A -> A) : Prop :=
  forall us, length us = k -> Forall (fun u => length u = vsize B) us ->
    length (fv us) = vsize B /\
    forall l, (l < vsize B)%nat -> nth l (fv us) d = fs (map (fun u => nth l u d) us).

Lemma lanewise1_k d vf f : lanewise1 B vf f -> lanewisek 1 d (fk1 [] vf) (fk1 d f).
Proof.
  intros H us Hl Hu. destruct us as [|u [|]]; try discriminate. inversion Hu; subst. cbn [fk1 map].
  rewrite !(H _ ltac:(eassumption)). split; [rewrite map_length; assumption|]. intros l Hlt.
  cbn [fk1]. rewrite ?H by assumption. rewrite (nth_indep (map f u) d (f d)) by (rewrite map_length; lia). apply map_nth.
Qed.

Lemma lanewise2_k d vf f : lanewise2 B vf f -> lanewisek 2 d (fk2 [] vf) (fk2 d f).
Proof.
  intros H us Hl Hu. destruct us as [|u [|v [|]]]; try discriminate.
  repeat match goal with H : Forall _ (_ :: _) |- _ => inversion H; subst; clear H end.
  cbn [fk2 map]. rewrite H by assumption. rewrite map2_length by congruence. split; [assumption|].
  intros l Hlt. rewrite ?H by assumption. apply nth_map2; lia.
Qed.

Lemma lanewise3_k d vf f : lanewise3 B vf f -> lanewisek 3 d (fk3 [] vf) (fk3 d f).
Proof.
  intros H us Hl Hu. destruct us as [|u [|v [|w [|]]]]; try discriminate.
  repeat match goal with H : Forall _ (_ :: _) |- _ => inversion H; subst; clear H end.
  cbn [fk3 map]. rewrite H by assumption. rewrite map3_length by congruence. split; [assumption|].
  intros l Hlt. rewrite ?H by assumption. apply nth_map3; lia.
Qed.

Lemma lanewise4_k d vf f : lanewise4 B vf f -> lanewisek 4 d (fk4 [] vf) (fk4 d f).
Proof.
  intros H us Hl Hu. destruct us as [|u [|v [|w [|x [|]]]]]; try discriminate.
  repeat match goal with H : Forall _ (_ :: _) |- _ => inversion H; subst; clear H end.
  cbn [fk4 map]. rewrite H by assumption. rewrite map4_length by congruence. split; [assumption|].
  intros l Hlt. rewrite ?H by assumption. apply nth_map4; lia.
Qed.

Lemma chunks_of_lanes d m out args fv fs N :
  lanewisek (length args) d fv fs ->
  Forall (fun a => varg_ok B m out N (wrap a)) args ->
  Forall (fun a => lanes_match m a (Z.of_nat N * step)) args ->
  chunks_are ar B d m (map wrap args) fv N
    (fun i => fs (map (fun a => sval ar d m a i) args)).
Proof.
  intros Hf Hok Hl J HJ. rewrite map_map.
  destruct (Hf (map (fun a => vchunk ar B d m (wrap a) J) args)) as [L G].
  - apply map_length.
  - apply Forall_map. eapply Forall_impl; [|exact Hok]. intros a Ha.
    eapply vchunk_length; exact Ha.
  - split; [exact L|]. intros l Hlt. rewrite G by assumption. rewrite map_map. f_equal.
    apply map_ext_in. intros a Hin. rewrite Forall_forall in Hl. apply (Hl a Hin); [assumption|].
    nia.
Qed.

(** Embeddings of the fixed-arity unrollers. *)
Lemma mp1_embed f : forall k m out l1 i1,
  mpk ar B k m out [l1] [i1] (fk1 [] f)
  = rmap (fun s => let '(m, i1) := s in (m, [i1])) (mp_iteration_1 ar B k m out l1 i1 f).
Proof.
  induction k as [|k IH]; intros; cbn [mpk mp_iteration_1 mapM]; [reflexivity|].
  destruct (preload _ _ _ m i1) as [[n1 j1]|]; cbn [bind rmap]; [|reflexivity].
  destruct (use l1); cbn [bind rmap fk1 map fst snd]; [|reflexivity].
  destruct (vstore_aligned _ _ _ _); cbn [bind rmap]; [|reflexivity]. apply IH.
Qed.

Lemma mp2_embed f : forall k m out l1 i1 l2 i2,
  mpk ar B k m out [l1; l2] [i1; i2] (fk2 [] f)
  = rmap (fun s => let '(m, i1, i2) := s in (m, [i1; i2])) (mp_iteration_2 ar B k m out l1 i1 l2 i2 f).
Proof.
  induction k as [|k IH]; intros; cbn [mpk mp_iteration_2 mapM]; [reflexivity|].
  destruct (preload _ _ _ m i1) as [[n1 j1]|]; cbn [bind rmap]; [|reflexivity].
  destruct (preload _ _ _ m i2) as [[n2 j2]|]; cbn [bind rmap]; [|reflexivity].
  destruct (use l1); cbn [bind rmap]; [|reflexivity].
  destruct (use l2); cbn [bind rmap fk2 map fst snd]; [|reflexivity].
  destruct (vstore_aligned _ _ _ _); cbn [bind rmap]; [|reflexivity]. apply IH.
Qed.

Lemma mp3_embed f : forall k m out l1 i1 l2 i2 l3 i3,
  mpk ar B k m out [l1; l2; l3] [i1; i2; i3] (fk3 [] f)
  = rmap (fun s => let '(m, i1, i2, i3) := s in (m, [i1; i2; i3]))
      (mp_iteration_3 ar B k m out l1 i1 l2 i2 l3 i3 f).
Proof.
  induction k as [|k IH]; intros; cbn [mpk mp_iteration_3 mapM]; [reflexivity|].
  destruct (preload _ _ _ m i1) as [[n1 j1]|]; cbn [bind rmap]; [|reflexivity].
  destruct (preload _ _ _ m i2) as [[n2 j2]|]; cbn [bind rmap]; [|reflexivity].
  destruct (preload _ _ _ m i3) as [[n3 j3]|]; cbn [bind rmap]; [|reflexivity].
  destruct (use l1); cbn [bind rmap]; [|reflexivity].
  destruct (use l2); cbn [bind rmap]; [|reflexivity].
  destruct (use l3); cbn [bind rmap fk3 map fst snd]; [|reflexivity].
  destruct (vstore_aligned _ _ _ _); cbn [bind rmap]; [|reflexivity]. apply IH.
Qed.

Lemma mp4_embed f : forall k m out l1 i1 l2 i2 l3 i3 l4 i4,
  mpk ar B k m out [l1; l2; l3; l4] [i1; i2; i3; i4] (fk4 [] f)
  = rmap (fun s => let '(m, i1, i2, i3, i4) := s in (m, [i1; i2; i3; i4]))
      (mp_iteration_4 ar B k m out l1 i1 l2 i2 l3 i3 l4 i4 f).
Proof.
  induction k as [|k IH]; intros; cbn [mpk mp_iteration_4 mapM]; [reflexivity|].
  destruct (preload _ _ _ m i1) as [[n1 j1]|]; cbn [bind rmap]; [|reflexivity].
  destruct (preload _ _ _ m i2) as [[n2 j2]|]; cbn [bind rmap]; [|reflexivity].
  destruct (preload _ _ _ m i3) as [[n3 j3]|]; cbn [bind rmap]; [|reflexivity].
  destruct (preload _ _ _ m i4) as [[n4 j4]|]; cbn [bind rmap]; [|reflexivity].
  destruct (use l1); cbn [bind rmap]; [|reflexivity].
  destruct (use l2); cbn [bind rmap]; [|reflexivity].
  destruct (use l3); cbn [bind rmap]; [|reflexivity].
  destruct (use l4); cbn [bind rmap fk4 map fst snd]; [|reflexivity].
  destruct (vstore_aligned _ _ _ _); cbn [bind rmap]; [|reflexivity]. apply IH.
Qed.

Lemma run1_embed f k m out i1 :
  runk ar B k m out [i1] (fk1 [] f)
  = rmap (fun s => let '(m, i1) := s in (m, [i1])) (run1 ar B k m out i1 f).
Proof.
  unfold runk, run1. cbn [mapM].
  destruct (varg_consume _ _ _ i1) as [[? ?]|]; cbn [bind rmap map fst snd]; [|reflexivity].
  apply mp1_embed.
Qed.

Lemma run2_embed f k m out i1 i2 :
  runk ar B k m out [i1; i2] (fk2 [] f)
  = rmap (fun s => let '(m, i1, i2) := s in (m, [i1; i2])) (run2 ar B k m out i1 i2 f).
Proof.
  unfold runk, run2. cbn [mapM].
  destruct (varg_consume _ _ _ i1) as [[? ?]|]; cbn [bind rmap]; [|reflexivity].
  destruct (varg_consume _ _ _ i2) as [[? ?]|]; cbn [bind rmap map fst snd]; [|reflexivity].
  apply mp2_embed.
Qed.

Lemma run3_embed f k m out i1 i2 i3 :
  runk ar B k m out [i1; i2; i3] (fk3 [] f)
  = rmap (fun s => let '(m, i1, i2, i3) := s in (m, [i1; i2; i3])) (run3 ar B k m out i1 i2 i3 f).
Proof.
  unfold runk, run3. cbn [mapM].
  destruct (varg_consume _ _ _ i1) as [[? ?]|]; cbn [bind rmap]; [|reflexivity].
  destruct (varg_consume _ _ _ i2) as [[? ?]|]; cbn [bind rmap]; [|reflexivity].
  destruct (varg_consume _ _ _ i3) as [[? ?]|]; cbn [bind rmap map fst snd]; [|reflexivity].
  apply mp3_embed.
Qed.

Lemma run4_embed f k m out i1 i2 i3 i4 :
  runk ar B k m out [i1; i2; i3; i4] (fk4 [] f)
  = rmap (fun s => let '(m, i1, i2, i3, i4) := s in (m, [i1; i2; i3; i4]))
      (run4 ar B k m out i1 i2 i3 i4 f).
Proof.
  unfold runk, run4. cbn [mapM].
  destruct (varg_consume _ _ _ i1) as [[? ?]|]; cbn [bind rmap]; [|reflexivity].
  destruct (varg_consume _ _ _ i2) as [[? ?]|]; cbn [bind rmap]; [|reflexivity].
  destruct (varg_consume _ _ _ i3) as [[? ?]|]; cbn [bind rmap]; [|reflexivity].
  destruct (varg_consume _ _ _ i4) as [[? ?]|]; cbn [bind rmap map fst snd]; [|reflexivity].
  apply mp4_embed.
Qed.

(** The loop bodies of generate_simd_loop. *)
Definition lbody1 f (s : mem A * Z * varg A) :=
  let '(m, out, in1) := s in
  '(m, in1) <- run1 ar B (vecs_per_loop B) m out in1 f ;;
  Ok (m, out + samples_per_loop B, in1).
(** Proof auxiliary: one pass of the binary SIMD loop, in tuple form. *)
Definition lbody2 f (s : mem A * Z * varg A * varg A) :=
  let '(m, out, in1, in2) := s in
  '(m, in1, in2) <- run2 ar B (vecs_per_loop B) m out in1 in2 f ;;
  Ok (m, out + samples_per_loop B, in1, in2).
(** Proof auxiliary: one pass of the ternary SIMD loop. *)
Definition lbody3 f (s : mem A * Z * varg A * varg A * varg A) :=
  let '(m, out, in1, in2, in3) := s in
  '(m, in1, in2, in3) <- run3 ar B (vecs_per_loop B) m out in1 in2 in3 f ;;
  Ok (m, out + samples_per_loop B, in1, in2, in3).
(** Proof auxiliary: one pass of the quaternary SIMD loop. *)
Definition lbody4 f (s : mem A * Z * varg A * varg A * varg A * varg A) :=
  let '(m, out, in1, in2, in3, in4) := s in
  '(m, in1, in2, in3, in4) <- run4 ar B (vecs_per_loop B) m out in1 in2 in3 in4 f ;;
  Ok (m, out + samples_per_loop B, in1, in2, in3, in4).

(** Proof auxiliary: loop state with one wrapper as a state with a list of
    wrappers. *)
Definition e1 (s : mem A * Z * varg A) := let '(m, out, i1) := s in (m, out, [i1]).
(** Proof auxiliary: the same for two wrappers. *)
Definition e2 (s : mem A * Z * varg A * varg A) := let '(m, out, i1, i2) := s in (m, out, [i1; i2]).
(** Proof auxiliary: the same for three wrappers. *)
Definition e3 (s : mem A * Z * varg A * varg A * varg A) :=
  let '(m, out, i1, i2, i3) := s in (m, out, [i1; i2; i3]).
(** Proof auxiliary: the same for four wrappers. *)
Definition e4 (s : mem A * Z * varg A * varg A * varg A * varg A) :=
  let '(m, out, i1, i2, i3, i4) := s in (m, out, [i1; i2; i3; i4]).

Lemma lbody1_embed f s : loopk_body ar B (fk1 [] f) (e1 s) = rmap e1 (lbody1 f s).
Proof.
  destruct s as [[m out] i1]. cbn [loopk_body lbody1 e1]. rewrite run1_embed.
  destruct (run1 _ _ _ _ _ _ _) as [[? ?]|]; reflexivity.
Qed.
Lemma lbody2_embed f s : loopk_body ar B (fk2 [] f) (e2 s) = rmap e2 (lbody2 f s).
Proof.
  destruct s as [[[m out] i1] i2]. cbn [loopk_body lbody2 e2]. rewrite run2_embed.
  destruct (run2 _ _ _ _ _ _ _ _) as [[[? ?] ?]|]; reflexivity.
Qed.
Lemma lbody3_embed f s : loopk_body ar B (fk3 [] f) (e3 s) = rmap e3 (lbody3 f s).
Proof.
  destruct s as [[[[m out] i1] i2] i3]. cbn [loopk_body lbody3 e3]. rewrite run3_embed.
  destruct (run3 _ _ _ _ _ _ _ _ _) as [[[[? ?] ?] ?]|]; reflexivity.
Qed.
Lemma lbody4_embed f s : loopk_body ar B (fk4 [] f) (e4 s) = rmap e4 (lbody4 f s).
Proof.
  destruct s as [[[[[m out] i1] i2] i3] i4]. cbn [loopk_body lbody4 e4]. rewrite run4_embed.
  destruct (run4 _ _ _ _ _ _ _ _ _ _) as [[[[[? ?] ?] ?] ?]|]; reflexivity.
Qed.

(** Requirements on one argument of a SIMD call over [n] samples. *)
Definition simd_arg (m : mem A) (out n : Z) (a : arg A) : Prop :=
  arg_accessible m a n /\ arg_aligned B a /\ overlap_ok out a n /\ lanes_match m a n.

(** Generic results: after [T] loop iterations / [k] unrolled vectors. *)
Lemma loopk_ok d m out args fv fs T :
  lanewisek (length args) d fv fs ->
  aligned B out -> accessible m out (Z.of_nat T * loop_unit B) ->
  Forall (simd_arg m out (Z.of_nat T * loop_unit B)) args ->
  exists m' s1 s2, iter_res T (loopk_body ar B fv) (m, out, map wrap args) = Ok (m', s1, s2) /\
    meq m' (wr m out (Z.of_nat T * loop_unit B) (fun i => fs (map (fun a => sval ar d m a i) args))).
Proof.
  intros Hf Hal Hacc Hargs.
  assert (HN : Z.of_nat T * loop_unit B = Z.of_nat (T * vecs_per_loop B) * step).
  { destruct (vecs_per_loop_spec B) as [E _]. nia. }
  assert (Hok : Forall (fun a => varg_ok B m out (T * vecs_per_loop B) (wrap a)) args).
  { eapply Forall_impl; [|exact Hargs]. intros a (H1 & H2 & H3 & _).
    eapply wrap_ok; [exact HN|..]; assumption. }
  apply (loopk_spec ar B d m out (map wrap args) fv _ T); auto.
  - rewrite Forall_map. exact Hok.
  - apply (chunks_of_lanes d m out); auto. rewrite <- HN.
    eapply Forall_impl; [|exact Hargs]. intros a (_ & _ & _ & H). exact H.
Qed.

Lemma runk_ok d m out args fv fs k :
  (0 < k)%nat ->
  lanewisek (length args) d fv fs ->
  aligned B out -> accessible m out (Z.of_nat k * step) ->
  Forall (simd_arg m out (Z.of_nat k * step)) args ->
  exists m' s, runk ar B k m out (map wrap args) fv = Ok (m', s) /\
    meq m' (wr m out (Z.of_nat k * step) (fun i => fs (map (fun a => sval ar d m a i) args))).
Proof.
  intros Hk Hf Hal Hacc Hargs.
  assert (Hok : Forall (fun a => varg_ok B m out k (wrap a)) args).
  { eapply Forall_impl; [|exact Hargs]. intros a (H1 & H2 & H3 & _).
    eapply wrap_ok; [reflexivity|..]; assumption. }
  destruct (runk_spec ar B d m out (map wrap args) fv
              (fun i => fs (map (fun a => sval ar d m a i) args)) k) with (k := k) (J := O) (m1 := m)
    as (m' & E & G); auto.
  - rewrite Forall_map. exact Hok.
  - apply (chunks_of_lanes d m out); auto.
    eapply Forall_impl; [|exact Hargs]. intros a (_ & _ & _ & H). exact H.
  - replace (Z.of_nat 0 * step) with 0 by lia. apply meq_wr_0.
  - replace (out + Z.of_nat 0 * step) with out in E by lia.
    rewrite (map_ext _ (fun x => x)) in E by (intro; apply vadv_0). rewrite map_id in E.
    cbn [Nat.add] in E, G. eauto.
Qed.

Lemma count_ok n : loop_unit B <= n < two32 -> 1 <= n / samples_per_loop B < two32.
Proof.
  intros H. rewrite loop_unit_spec. pose proof (loop_unit_pos B) as Hp. split.
  - apply Z.div_le_lower_bound; lia.
  - apply Z.div_lt_upper_bound; [lia|]. nia.
Qed.

(** Proof auxiliary: n rounded down to whole loop passes. *)
Definition rounded (n : Z) : Z := n / loop_unit B * loop_unit B.

Ltac simd_start n Hn :=
  rewrite do_while_iter by (apply count_ok; exact Hn).

Ltac finish_lift d n :=
  let i := fresh in let H := fresh in
  intros i H; cbv beta;
  repeat match goal with |- context [sample ar ?m ?a i] =>
    rewrite (sample_sval ar d m a n i) by (auto; tauto) end;
  reflexivity.

Lemma unary_simd_ok vf f m out inp n :
  lanewise1 B vf f -> loop_unit B <= n < two32 ->
  aligned B out -> accessible m out (rounded n) ->
  simd_arg m out (rounded n) (APtr inp) ->
  exists m', unary_vec_simd ar B vf m out inp n = Ok m' /\
    writes_exactly m m' out (rounded n) (fun i => lift1 f (sample ar m (APtr inp) i)).
Proof.
  intros Hf Hn Hal Hacc H1. pose proof (loop_unit_pos B) as Hp.
  assert (HT : 1 <= n / loop_unit B) by (apply Z.div_le_lower_bound; lia).
  destruct (Hacc 0) as [d _]; [unfold rounded; nia|].
  unfold unary_vec_simd, generate_simd_loop1.
  simd_start n Hn. fold (lbody1 vf).
  set (T := Z.to_nat (n / samples_per_loop B)).
  assert (HR : rounded n = Z.of_nat T * loop_unit B) by (unfold rounded, T; rewrite loop_unit_spec, Z2Nat.id; lia).
  rewrite HR in *.
  destruct (loopk_ok d m out [APtr inp] (fk1 [] vf) (fk1 d f) T) as (m' & s1 & s2 & E & G);
    auto using lanewise1_k.
  cbn [map] in E.
  pose proof (iter_res_embed _ _ e1 (lbody1_embed vf) T (m, out, wrap (APtr inp))) as R.
  cbn [e1] in R. rewrite E in R.
  match goal with |- exists _, bind ?X _ = _ /\ _ => change X with (iter_res T (lbody1 vf) (m, out, wrap (APtr inp))) end.
  destruct (iter_res T (lbody1 vf) (m, out, wrap (APtr inp))) as [[[m1 ?] ?]|]; [|discriminate].
  cbn [rmap e1] in R. inversion R; subst. cbn [bind]. exists m1. split; [reflexivity|].
  eapply writes_exactly_of_wr; [exact G|]. destruct H1 as (HA & _).
  finish_lift d (Z.of_nat T * loop_unit B).
Qed.

Lemma binary_simd_ok vf f m out a1 a2 n :
  lanewise2 B vf f -> loop_unit B <= n < two32 ->
  aligned B out -> accessible m out (rounded n) ->
  simd_arg m out (rounded n) a1 -> simd_arg m out (rounded n) a2 ->
  exists m', binary_vec_simd ar B vf m out a1 a2 n = Ok m' /\
    writes_exactly m m' out (rounded n) (fun i => lift2 f (sample ar m a1 i) (sample ar m a2 i)).
Proof.
  intros Hf Hn Hal Hacc H1 H2. pose proof (loop_unit_pos B) as Hp.
  assert (HT : 1 <= n / loop_unit B) by (apply Z.div_le_lower_bound; lia).
  destruct (Hacc 0) as [d _]; [unfold rounded; nia|].
  unfold binary_vec_simd, generate_simd_loop2.
  simd_start n Hn. fold (lbody2 vf).
  set (T := Z.to_nat (n / samples_per_loop B)).
  assert (HR : rounded n = Z.of_nat T * loop_unit B) by (unfold rounded, T; rewrite loop_unit_spec, Z2Nat.id; lia).
  rewrite HR in *.
  destruct (loopk_ok d m out [a1; a2] (fk2 [] vf) (fk2 d f) T) as (m' & s1 & s2 & E & G);
    auto using lanewise2_k.
  cbn [map] in E.
  pose proof (iter_res_embed _ _ e2 (lbody2_embed vf) T (m, out, wrap a1, wrap a2)) as R.
  cbn [e2] in R. rewrite E in R.
  match goal with |- exists _, bind ?X _ = _ /\ _ => change X with (iter_res T (lbody2 vf) (m, out, wrap a1, wrap a2)) end.
  destruct (iter_res T (lbody2 vf) (m, out, wrap a1, wrap a2)) as [[[[m1 ?] ?] ?]|]; [|discriminate].
  cbn [rmap e2] in R. inversion R; subst. cbn [bind]. exists m1. split; [reflexivity|].
  eapply writes_exactly_of_wr; [exact G|]. destruct H1 as (HA & _), H2 as (HB & _).
  finish_lift d (Z.of_nat T * loop_unit B).
Qed.

Lemma ternary_simd_ok vf f m out a1 a2 a3 n :
  lanewise3 B vf f -> loop_unit B <= n < two32 ->
  aligned B out -> accessible m out (rounded n) ->
  simd_arg m out (rounded n) a1 -> simd_arg m out (rounded n) a2 -> simd_arg m out (rounded n) a3 ->
  exists m', ternary_vec_simd ar B vf m out a1 a2 a3 n = Ok m' /\
    writes_exactly m m' out (rounded n)
      (fun i => lift3 f (sample ar m a1 i) (sample ar m a2 i) (sample ar m a3 i)).
Proof.
  intros Hf Hn Hal Hacc H1 H2 H3. pose proof (loop_unit_pos B) as Hp.
  assert (HT : 1 <= n / loop_unit B) by (apply Z.div_le_lower_bound; lia).
  destruct (Hacc 0) as [d _]; [unfold rounded; nia|].
  unfold ternary_vec_simd, generate_simd_loop3.
  simd_start n Hn.
  set (T := Z.to_nat (n / samples_per_loop B)).
  assert (HR : rounded n = Z.of_nat T * loop_unit B) by (unfold rounded, T; rewrite loop_unit_spec, Z2Nat.id; lia).
  rewrite HR in *.
  destruct (loopk_ok d m out [a1; a2; a3] (fk3 [] vf) (fk3 d f) T) as (m' & s1 & s2 & E & G);
    auto using lanewise3_k.
  cbn [map] in E.
  pose proof (iter_res_embed _ _ e3 (lbody3_embed vf) T (m, out, wrap a1, wrap a2, wrap a3)) as R.
  cbn [e3] in R. rewrite E in R.
  match goal with |- exists _, bind ?X _ = _ /\ _ => change X with (iter_res T (lbody3 vf) (m, out, wrap a1, wrap a2, wrap a3)) end.
  destruct (iter_res T (lbody3 vf) (m, out, wrap a1, wrap a2, wrap a3)) as [[[[[m1 ?] ?] ?] ?]|]; [|discriminate].
  cbn [rmap e3] in R. inversion R; subst. cbn [bind]. exists m1. split; [reflexivity|].
  eapply writes_exactly_of_wr; [exact G|]. destruct H1 as (HA & _), H2 as (HB & _), H3 as (HC & _).
  finish_lift d (Z.of_nat T * loop_unit B).
Qed.

Lemma quaternary_simd_ok vf f m out a1 a2 a3 a4 n :
  lanewise4 B vf f -> loop_unit B <= n < two32 ->
  aligned B out -> accessible m out (rounded n) ->
  simd_arg m out (rounded n) a1 -> simd_arg m out (rounded n) a2 ->
  simd_arg m out (rounded n) a3 -> simd_arg m out (rounded n) a4 ->
  exists m', quaternary_vec_simd ar B vf m out a1 a2 a3 a4 n = Ok m' /\
    writes_exactly m m' out (rounded n)
      (fun i => lift4 f (sample ar m a1 i) (sample ar m a2 i) (sample ar m a3 i) (sample ar m a4 i)).
Proof.
  intros Hf Hn Hal Hacc H1 H2 H3 H4. pose proof (loop_unit_pos B) as Hp.
  assert (HT : 1 <= n / loop_unit B) by (apply Z.div_le_lower_bound; lia).
  destruct (Hacc 0) as [d _]; [unfold rounded; nia|].
  unfold quaternary_vec_simd, generate_simd_loop4.
  simd_start n Hn.
  set (T := Z.to_nat (n / samples_per_loop B)).
  assert (HR : rounded n = Z.of_nat T * loop_unit B) by (unfold rounded, T; rewrite loop_unit_spec, Z2Nat.id; lia).
  rewrite HR in *.
  destruct (loopk_ok d m out [a1; a2; a3; a4] (fk4 [] vf) (fk4 d f) T) as (m' & s1 & s2 & E & G);
    auto 10 using lanewise4_k.
  cbn [map] in E.
  pose proof (iter_res_embed _ _ e4 (lbody4_embed vf) T (m, out, wrap a1, wrap a2, wrap a3, wrap a4)) as R.
  cbn [e4] in R. rewrite E in R.
  match goal with |- exists _, bind ?X _ = _ /\ _ => change X with (iter_res T (lbody4 vf) (m, out, wrap a1, wrap a2, wrap a3, wrap a4)) end.
  destruct (iter_res T (lbody4 vf) (m, out, wrap a1, wrap a2, wrap a3, wrap a4)) as [[[[[[m1 ?] ?] ?] ?] ?]|]; [|discriminate].
  cbn [rmap e4] in R. inversion R; subst. cbn [bind]. exists m1. split; [reflexivity|].
  eapply writes_exactly_of_wr; [exact G|].
  destruct H1 as (HA & _), H2 as (HB & _), H3 as (HC & _), H4 as (HD & _).
  finish_lift d (Z.of_nat T * loop_unit B).
Qed.

(** Compile-time forms over [k] vectors. *)
Lemma unary_ct_ok vf f m out inp k :
  lanewise1 B vf f -> (0 < k)%nat ->
  aligned B out -> accessible m out (Z.of_nat k * step) ->
  simd_arg m out (Z.of_nat k * step) (APtr inp) ->
  exists m', unary_vec_simd_ct ar B k vf m out inp = Ok m' /\
    writes_exactly m m' out (Z.of_nat k * step) (fun i => lift1 f (sample ar m (APtr inp) i)).
Proof.
  intros Hf Hk Hal Hacc H1. pose proof (vsize_pos B) as Hp.
  destruct (Hacc 0) as [d _]; [nia|].
  destruct (runk_ok d m out [APtr inp] (fk1 [] vf) (fk1 d f) k) as (m' & s & E & G);
    auto using lanewise1_k.
  unfold unary_vec_simd_ct. cbn [map wrap_vector_arg] in E. rewrite run1_embed in E.
  destruct (run1 ar B k m out (VPtr inp) vf) as [[m1 ?]|]; [|discriminate].
  cbn [rmap] in E. inversion E; subst. cbn [bind]. exists m'. split; [reflexivity|].
  eapply writes_exactly_of_wr; [exact G|]. destruct H1 as (HA & _). finish_lift d (Z.of_nat k * step).
Qed.

Lemma binary_ct_ok vf f m out a1 a2 k :
  lanewise2 B vf f -> (0 < k)%nat ->
  aligned B out -> accessible m out (Z.of_nat k * step) ->
  simd_arg m out (Z.of_nat k * step) a1 -> simd_arg m out (Z.of_nat k * step) a2 ->
  exists m', binary_vec_simd_ct ar B k vf m out a1 a2 = Ok m' /\
    writes_exactly m m' out (Z.of_nat k * step) (fun i => lift2 f (sample ar m a1 i) (sample ar m a2 i)).
Proof.
  intros Hf Hk Hal Hacc H1 H2. pose proof (vsize_pos B) as Hp.
  destruct (Hacc 0) as [d _]; [nia|].
  destruct (runk_ok d m out [a1; a2] (fk2 [] vf) (fk2 d f) k) as (m' & s & E & G);
    auto using lanewise2_k.
  unfold binary_vec_simd_ct. cbn [map] in E. rewrite run2_embed in E.
  destruct (run2 ar B k m out (wrap a1) (wrap a2) vf) as [[[m1 ?] ?]|]; [|discriminate].
  cbn [rmap] in E. inversion E; subst. cbn [bind]. exists m'. split; [reflexivity|].
  eapply writes_exactly_of_wr; [exact G|]. destruct H1 as (HA & _), H2 as (HB & _).
  finish_lift d (Z.of_nat k * step).
Qed.

Lemma ternary_ct_ok vf f m out a1 a2 a3 k :
  lanewise3 B vf f -> (0 < k)%nat ->
  aligned B out -> accessible m out (Z.of_nat k * step) ->
  simd_arg m out (Z.of_nat k * step) a1 -> simd_arg m out (Z.of_nat k * step) a2 ->
  simd_arg m out (Z.of_nat k * step) a3 ->
  exists m', ternary_vec_simd_ct ar B k vf m out a1 a2 a3 = Ok m' /\
    writes_exactly m m' out (Z.of_nat k * step)
      (fun i => lift3 f (sample ar m a1 i) (sample ar m a2 i) (sample ar m a3 i)).
Proof.
  intros Hf Hk Hal Hacc H1 H2 H3. pose proof (vsize_pos B) as Hp.
  destruct (Hacc 0) as [d _]; [nia|].
  destruct (runk_ok d m out [a1; a2; a3] (fk3 [] vf) (fk3 d f) k) as (m' & s & E & G);
    auto using lanewise3_k.
  unfold ternary_vec_simd_ct. cbn [map] in E. rewrite run3_embed in E.
  destruct (run3 ar B k m out (wrap a1) (wrap a2) (wrap a3) vf) as [[[[m1 ?] ?] ?]|]; [|discriminate].
  cbn [rmap] in E. inversion E; subst. cbn [bind]. exists m'. split; [reflexivity|].
  eapply writes_exactly_of_wr; [exact G|]. destruct H1 as (HA & _), H2 as (HB & _), H3 as (HC & _).
  finish_lift d (Z.of_nat k * step).
Qed.

Lemma quaternary_ct_ok vf f m out a1 a2 a3 a4 k :
  lanewise4 B vf f -> (0 < k)%nat ->
  aligned B out -> accessible m out (Z.of_nat k * step) ->
  simd_arg m out (Z.of_nat k * step) a1 -> simd_arg m out (Z.of_nat k * step) a2 ->
  simd_arg m out (Z.of_nat k * step) a3 -> simd_arg m out (Z.of_nat k * step) a4 ->
  exists m', quaternary_vec_simd_ct ar B k vf m out a1 a2 a3 a4 = Ok m' /\
    writes_exactly m m' out (Z.of_nat k * step)
      (fun i => lift4 f (sample ar m a1 i) (sample ar m a2 i) (sample ar m a3 i) (sample ar m a4 i)).
Proof.
  intros Hf Hk Hal Hacc H1 H2 H3 H4. pose proof (vsize_pos B) as Hp.
  destruct (Hacc 0) as [d _]; [nia|].
  destruct (runk_ok d m out [a1; a2; a3; a4] (fk4 [] vf) (fk4 d f) k) as (m' & s & E & G);
    auto 10 using lanewise4_k.
  unfold quaternary_vec_simd_ct. cbn [map] in E. rewrite run4_embed in E.
  destruct (run4 ar B k m out (wrap a1) (wrap a2) (wrap a3) (wrap a4) vf) as [[[[[m1 ?] ?] ?] ?]|]; [|discriminate].
  cbn [rmap] in E. inversion E; subst. cbn [bind]. exists m'. split; [reflexivity|].
  eapply writes_exactly_of_wr; [exact G|].
  destruct H1 as (HA & _), H2 as (HB & _), H3 as (HC & _), H4 as (HD & _).
  finish_lift d (Z.of_nat k * step).
Qed.

End Vector.
