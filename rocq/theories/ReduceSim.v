(** Results of the reductions through a simulation by exact contributions. *)

From Coq Require Import ZArith List Lia.
From Verif Require Import Base Mem Loop Backend Lanes Reduce Spec SpecReduce LoopFacts MemFacts ReduceFacts ReduceRun.
Import ListNotations.
Local Open Scope Z_scope.

Lemma concat_split {M A} (R : A -> M -> Prop) : forall (bs : list (list A)) ms, Forall2 R (concat bs) ms ->
  exists bss, Forall2 (Forall2 R) bs bss /\ concat bss = ms.
Proof.
  induction bs as [|b bs IH]; intros ms H; cbn in H.
  - inversion H; subst. exists []. split; [constructor|reflexivity].
  - apply Forall2_app_inv_l in H. destruct H as (m1 & m2 & H1 & H2 & ->).
    destruct (IH _ H2) as (bss & H3 & <-). exists (m1 :: bss). split; [constructor; assumption|reflexivity].
Qed.

Lemma blocks_len {M A} (R : A -> M -> Prop) w bs bss : Forall2 (Forall2 R) bs bss ->
  Forall (fun b => length b = w) bs -> Forall (fun b => length b = w) bss.
Proof.
  induction 1 as [|b x bs bss Hb H IH]; intros K; inversion K; subst; constructor; auto.
  rewrite <- (Forall2_len _ _ _ Hb). reflexivity.
Qed.

Lemma Forall2_map_l {X Y Z'} (Q : Y -> Z' -> Prop) (f : X -> Y) l l' :
  Forall2 (fun x z => Q (f x) z) l l' <-> Forall2 Q (map f l) l'.
Proof.
  split.
  - induction 1; cbn; constructor; auto.
  - remember (map f l) as fl eqn:E. intros H. revert l E.
    induction H; intros [|a l0] E; try discriminate; constructor; inversion E; subst; auto.
Qed.

Section Sim.
Context {A M : Type} (cmb : M -> M -> M).
Context (cA : forall x y z, cmb x (cmb y z) = cmb (cmb x y) z) (cC : forall x y, cmb x y = cmb y x).
Context (ok : M -> Prop) (okl : forall x y, ok (cmb x y) -> ok x).
Context (R : A -> M -> Prop).
Context (sop vop : A -> A -> A).
Context (Rs : forall a b x y, R a x -> R b y -> ok (cmb x y) -> R (sop a b) (cmb x y)).
Context (Rv : forall a b x y, R a x -> R b y -> ok (cmb x y) -> R (vop a b) (cmb x y)).
Context (c : cfg) (B : backend).
Local Notation wd := (vsize B).

Lemma tot_repeat z k : cmb z z = z -> tot cmb (repeat z (S k)) z = z.
Proof. intros H. cbn. induction k as [|k IH]; cbn; [reflexivity|]. rewrite H. exact IH. Qed.

Lemma vsize_S : exists k, wd = S k. Proof. destruct B; cbn; eexists; reflexivity. Qed.

(** A vector accumulator started from [i] in every lane. *)
Lemma red_acc bs ms i z : Forall (fun b => length b = wd) bs -> Forall2 R (concat bs) ms -> R i z -> cmb z z = z ->
  ok (fold_left cmb ms z) ->
  exists vs, Forall2 R (fold_left (map2 vop) bs (set_vec B i)) vs /\ length vs = wd /\ tot cmb vs z = fold_left cmb ms z.
Proof.
  intros Hb H Hi Hz Hok. destruct (concat_split R bs ms H) as (bss & H1 & <-).
  pose proof (blocks_len R wd bs bss H1 Hb) as H2. destruct vsize_S as [k Hk].
  assert (Hw : (0 < wd)%nat) by lia.
  assert (Hl : length (repeat z wd) = wd) by apply repeat_length.
  pose proof (tot_acc cmb cA cC z wd Hw bss (repeat z wd) Hl H2) as T.
  rewrite Hk, tot_repeat in T by exact Hz. rewrite <- Hk in T.
  destruct (acc_sim cmb cA cC ok okl R vop Rv z wd Hw bs bss (set_vec B i) (repeat z wd)) as [K1 K2]; auto.
  - unfold set_vec. clear - Hi. induction wd; cbn; constructor; auto.
  - rewrite T. exact Hok.
  - exists (fold_left (map2 cmb) bss (repeat z wd)). auto.
Qed.

Lemma red_max bs ms i z : Forall (fun b => length b = wd) bs -> Forall2 R (concat bs) ms -> R i z -> cmb z z = z ->
  ok (fold_left cmb ms z) ->
  exists r, horizontal_max B sop vop (fold_left (map2 vop) bs (set_vec B i)) = Ok r /\ R r (fold_left cmb ms z).
Proof.
  intros Hb H Hi Hz Hok. destruct (red_acc bs ms i z Hb H Hi Hz Hok) as (vs & K1 & K2 & K3).
  destruct (horizontal_sim cmb cA cC ok okl R sop vop Rs Rv z B _ vs K1) as (r & E & Hr).
  - rewrite (Forall2_len _ _ _ K1). exact K2.
  - rewrite K3. exact Hok.
  - rewrite K3 in Hr. eauto.
Qed.

Lemma red_sum bs ms i z : Forall (fun b => length b = wd) bs -> Forall2 R (concat bs) ms -> R i z ->
  (forall x, cmb z x = x) -> ok (fold_left cmb ms z) ->
  exists r, horizontal_sum c B i vop (fold_left (map2 vop) bs (set_vec B i)) = Ok r /\ R r (fold_left cmb ms z).
Proof.
  intros Hb H Hi Hz Hok. destruct (red_acc bs ms i z Hb H Hi (Hz z) Hok) as (vs & K1 & K2 & K3).
  destruct (horizontal_sum_sim cmb cA cC ok okl R vop Rv z c B i z _ vs Hi Hz K1) as (r & E & Hr).
  - rewrite (Forall2_len _ _ _ K1). exact K2.
  - rewrite K3. exact Hok.
  - rewrite K3 in Hr. eauto.
Qed.

(** * Blocks of four vectors *)
Lemma fold_tot l z : l <> [] -> fold_left cmb l z = cmb z (tot cmb l z).
Proof. destruct l as [|x l]; [congruence|]. intros _. cbn. apply (fold_cmb cmb cA). Qed.

Lemma map2_len {X Y Z'} (f : X -> Y -> Z') : forall l1 l2, length l1 = length l2 -> length (map2 f l1 l2) = length l1.
Proof. induction l1; intros [|y l2]; cbn; intros; try discriminate; auto. Qed.

(** Proof auxiliary: the same maximum in the abstract algebra. *)
Definition tree_max (b : list M) : list M :=
  map2 cmb (map2 cmb (quarter B 0 b) (quarter B 1 b)) (map2 cmb (quarter B 2 b) (quarter B 3 b)).
(** Proof auxiliary: the same sum in the abstract algebra. *)
Definition tree_sum (b : list M) : list M :=
  map2 cmb (map2 cmb (map2 cmb (quarter B 0 b) (quarter B 1 b)) (quarter B 2 b)) (quarter B 3 b).

Lemma tot_app l1 l2 z : l1 <> [] -> l2 <> [] -> tot cmb (l1 ++ l2) z = cmb (tot cmb l1 z) (tot cmb l2 z).
Proof.
  destruct l1 as [|x l1], l2 as [|y l2]; try congruence. intros _ _. cbn. rewrite (fold_app cmb cA). reflexivity.
Qed.

Lemma nonempty {X} (l : list X) : (0 < length l)%nat -> l <> [].
Proof. intros H E. rewrite E in H. cbn in H. lia. Qed.

Lemma tree_max_len b : length b = (4 * wd)%nat -> length (tree_max b) = wd.
Proof. intros H. unfold tree_max. rewrite !map2_len; rewrite ?map2_len; rewrite ?quarter_length; auto; lia. Qed.
Lemma tree_sum_len b : length b = (4 * wd)%nat -> length (tree_sum b) = wd.
Proof. intros H. unfold tree_sum. rewrite !map2_len; rewrite ?map2_len; rewrite ?map2_len; rewrite ?quarter_length; auto; lia. Qed.

Lemma tot4 b z : length b = (4 * wd)%nat ->
  tot cmb b z = cmb (tot cmb (quarter B 0 b) z) (cmb (tot cmb (quarter B 1 b) z)
                 (cmb (tot cmb (quarter B 2 b) z) (tot cmb (quarter B 3 b) z))).
Proof.
  intros H. pose proof (vsize_pos B).
  pose proof (quarter_length B 0 b ltac:(lia) H) as L0. pose proof (quarter_length B 1 b ltac:(lia) H) as L1.
  pose proof (quarter_length B 2 b ltac:(lia) H) as L2. pose proof (quarter_length B 3 b ltac:(lia) H) as L3.
  pose proof (quarters B b H) as Q.
  set (q0 := quarter B 0 b) in *. set (q1 := quarter B 1 b) in *. set (q2 := quarter B 2 b) in *. set (q3 := quarter B 3 b) in *.
  clearbody q0 q1 q2 q3. rewrite Q.
  rewrite !tot_app; try (apply nonempty; rewrite ?app_length; lia). reflexivity.
Qed.

Lemma tree_max_tot b z : length b = (4 * wd)%nat -> tot cmb (tree_max b) z = tot cmb b z.
Proof.
  intros H. pose proof (vsize_pos B). rewrite (tot4 b z H). unfold tree_max.
  rewrite !(tot_map2 cmb cA cC); rewrite ?map2_len; rewrite ?quarter_length; auto; try lia.
  all: rewrite <- !cA; reflexivity.
Qed.

Lemma tree_sum_tot b z : length b = (4 * wd)%nat -> tot cmb (tree_sum b) z = tot cmb b z.
Proof.
  intros H. pose proof (vsize_pos B). rewrite (tot4 b z H). unfold tree_sum.
  rewrite !(tot_map2 cmb cA cC); rewrite ?map2_len; rewrite ?map2_len; rewrite ?quarter_length; auto; try lia.
  try (rewrite <- !cA; reflexivity).
Qed.

Lemma quarter_sim k (l : list A) ms : Forall2 R l ms -> Forall2 R (quarter B k l) (quarter B k ms).
Proof.
  assert (S1 : forall j (l : list A) ms, Forall2 R l ms -> Forall2 R (skipn j l) (skipn j ms)).
  { induction j; intros l0 ms0 H; cbn; [exact H|]. destruct H; [constructor|]. apply IHj. assumption. }
  assert (S2 : forall j (l : list A) ms, Forall2 R l ms -> Forall2 R (firstn j l) (firstn j ms)).
  { induction j; intros l0 ms0 H; cbn; [constructor|]. destruct H; constructor; auto. }
  intros H. apply S2, S1, H.
Qed.

(** Accumulating blocks that are combined into one vector by a tree. *)
Section Tree.
Context (G : list A -> list A) (H : list M -> list M).
Context (Hlen : forall b, length b = (4 * wd)%nat -> length (H b) = wd).
Context (Htot : forall b z, length b = (4 * wd)%nat -> tot cmb (H b) z = tot cmb b z).
Context (HR : forall l b z, Forall2 R l b -> length b = (4 * wd)%nat -> ok (tot cmb b z) -> Forall2 R (G l) (H b)).

Lemma tree_acc bs ms init inits z : Forall (fun b => length b = (4 * wd)%nat) bs ->
  Forall2 R (concat bs) ms -> Forall2 R init inits -> length inits = wd ->
  ok (fold_left cmb ms (tot cmb inits z)) ->
  exists vs, Forall2 R (fold_left (fun s b => map2 vop s (G b)) bs init) vs /\ length vs = wd /\
             tot cmb vs z = fold_left cmb ms (tot cmb inits z).
Proof.
  intros Hb HC Hi Hl Hok. destruct (concat_split R bs ms HC) as (bss & H1 & <-).
  pose proof (blocks_len R (4 * wd) bs bss H1 Hb) as H2.
  assert (Hw : (0 < wd)%nat) by apply vsize_pos.
  assert (E : forall (u : list (list A)) s, fold_left (fun s b => map2 vop s (G b)) u s = fold_left (map2 vop) (map G u) s).
  { induction u as [|x u IH]; intros s; cbn; [reflexivity|apply IH]. }
  assert (T0 : forall u z1, Forall (fun b => length b = (4 * wd)%nat) u ->
     fold_left cmb (concat (map H u)) z1 = fold_left cmb (concat u) z1).
  { induction u as [|x u IH]; intros z1 K; cbn; [reflexivity|]. inversion K; subst.
    rewrite !fold_left_app, IH by assumption. f_equal.
    rewrite !fold_tot by (apply nonempty; rewrite ?Hlen by assumption; lia). rewrite Htot by assumption. reflexivity. }
  assert (L2 : Forall (fun b => length b = wd) (map H bss)).
  { clear - H2 Hlen. induction H2; cbn; constructor; auto. }
  pose proof (tot_acc cmb cA cC z wd Hw (map H bss) inits Hl L2) as T. rewrite T0 in T by exact H2.
  assert (RH : Forall2 (Forall2 R) (map G bs) (map H bss)).
  { clear - H1 H2 HR Hok cA cC okl Hw. revert Hok. generalize (tot cmb inits z). intros z1 Hok. clear inits. revert z1 Hok H2.
    induction H1 as [|b x bs bss Hbx H1 IH]; intros z1 Hok H2; cbn; constructor; inversion H2; subst.
    - apply (HR b x z1); auto. cbn in Hok. rewrite fold_left_app in Hok.
      apply (ok_fold cmb ok okl) in Hok. rewrite fold_tot in Hok by (apply nonempty; lia).
      exact (okr cmb cC ok okl _ _ Hok).
    - cbn in Hok. rewrite fold_left_app in Hok. exact (IH _ Hok ltac:(assumption)). }
  destruct (acc_sim cmb cA cC ok okl R vop Rv z wd Hw (map G bs) (map H bss) init inits) as [K1 K2]; auto.
  - rewrite T. exact Hok.
  - rewrite E. exists (fold_left (map2 cmb) (map H bss) inits). auto.
Qed.
End Tree.

Lemma tree_max_R l b z : Forall2 R l b -> length b = (4 * wd)%nat -> ok (tot cmb b z) ->
  Forall2 R (map2 vop (map2 vop (quarter B 0 l) (quarter B 1 l)) (map2 vop (quarter B 2 l) (quarter B 3 l))) (tree_max b).
Proof.
  intros HRl Hb Hok. pose proof (vsize_pos B).
  pose proof (quarter_length B 0 b ltac:(lia) Hb) as L0. pose proof (quarter_length B 1 b ltac:(lia) Hb) as L1.
  pose proof (quarter_length B 2 b ltac:(lia) Hb) as L2. pose proof (quarter_length B 3 b ltac:(lia) Hb) as L3.
  assert (O : ok (tot cmb (tree_max b) z)) by (rewrite tree_max_tot by exact Hb; exact Hok).
  pose proof O as O'. unfold tree_max in O'. rewrite (tot_map2 cmb cA cC) in O' by (rewrite !map2_len; lia).
  pose proof (okl _ _ O') as O1. pose proof (okr cmb cC ok okl _ _ O') as O2.
  unfold tree_max. apply (map2_sim cmb ok R vop Rv).
  - apply (map2_sim cmb ok R vop Rv); try apply quarter_sim; auto. exact (ok_tot cmb cC ok okl z _ O1).
  - apply (map2_sim cmb ok R vop Rv); try apply quarter_sim; auto. exact (ok_tot cmb cC ok okl z _ O2).
  - exact (ok_tot cmb cC ok okl z _ O).
Qed.

Lemma tree_sum_R l b z : Forall2 R l b -> length b = (4 * wd)%nat -> ok (tot cmb b z) ->
  Forall2 R (map2 vop (map2 vop (map2 vop (quarter B 0 l) (quarter B 1 l)) (quarter B 2 l)) (quarter B 3 l)) (tree_sum b).
Proof.
  intros HRl Hb Hok. pose proof (vsize_pos B).
  pose proof (quarter_length B 0 b ltac:(lia) Hb) as L0. pose proof (quarter_length B 1 b ltac:(lia) Hb) as L1.
  pose proof (quarter_length B 2 b ltac:(lia) Hb) as L2. pose proof (quarter_length B 3 b ltac:(lia) Hb) as L3.
  assert (O : ok (tot cmb (tree_sum b) z)) by (rewrite tree_sum_tot by exact Hb; exact Hok).
  pose proof O as O'. unfold tree_sum in O'. rewrite (tot_map2 cmb cA cC) in O' by (rewrite !map2_len; rewrite ?map2_len; lia).
  pose proof (okl _ _ O') as O1. pose proof O1 as O2. rewrite (tot_map2 cmb cA cC) in O2 by (rewrite ?map2_len; lia).
  pose proof (okl _ _ O2) as O3.
  unfold tree_sum. apply (map2_sim cmb ok R vop Rv); [|apply quarter_sim; auto|exact (ok_tot cmb cC ok okl z _ O)].
  apply (map2_sim cmb ok R vop Rv); [|apply quarter_sim; auto|exact (ok_tot cmb cC ok okl z _ O1)].
  apply (map2_sim cmb ok R vop Rv); try (apply quarter_sim; auto). exact (ok_tot cmb cC ok okl z _ O3).
Qed.
End Sim.

Lemma map_quarter {X Y} B (f : X -> Y) k l : map f (quarter B k l) = quarter B k (map f l).
Proof. unfold quarter. rewrite skipn_map, firstn_map. reflexivity. Qed.
