From Coq Require Import ZArith List Lia Bool.
From Verif Require Import Base Mem Backend Spec.
Import ListNotations.
Local Open Scope Z_scope.

(** [m] with [v 0 .. v (K-1)] written at [out]. *)
Definition wr {A} (m : mem A) (out K : Z) (v : Z -> A) : mem A :=
  fun a => if (out <=? a) && (a <? out + K) then Some (v (a - out)) else m a.

(** Proof auxiliary: memories with equal contents. *)
Definition meq {A} (m1 m2 : mem A) : Prop := forall a, m1 a = m2 a.

Lemma wr_in {A} (m : mem A) out K v i : 0 <= i < K -> wr m out K v (out + i) = Some (v i).
Proof.
  intros H. unfold wr.
  destruct (Z.leb_spec out (out + i)); [|lia].
  destruct (Z.ltb_spec (out + i) (out + K)); [|lia].
  cbn. do 2 f_equal. lia.
Qed.

Lemma wr_out {A} (m : mem A) out K v a : a < out \/ out + K <= a -> wr m out K v a = m a.
Proof.
  intros H. unfold wr.
  destruct (Z.leb_spec out a); [|reflexivity].
  destruct (Z.ltb_spec a (out + K)); [lia|reflexivity].
Qed.

Lemma meq_wr_0 {A} (m : mem A) out v : meq m (wr m out 0 v).
Proof. intro a. symmetry. apply wr_out. lia. Qed.

Lemma load_n_spec {A} : forall k (m : mem A) a (l : list A) d,
  length l = k -> (forall j, (j < k)%nat -> m (a + Z.of_nat j) = Some (nth j l d)) ->
  load_n k m a = Ok l.
Proof.
  induction k as [|k IH]; intros m a l d Hl H; cbn [load_n].
  - destruct l; [reflexivity|discriminate].
  - destruct l as [|x r]; [discriminate|].
    pose proof (H O ltac:(lia)) as H0. cbn in H0. rewrite Z.add_0_r in H0.
    unfold load. rewrite H0. cbn [bind].
    rewrite (IH m (a + 1) r d); [reflexivity|cbn in Hl; lia|].
    intros j Hj. pose proof (H (S j) ltac:(lia)) as Hs.
    replace (a + 1 + Z.of_nat j) with (a + Z.of_nat (S j)) by lia. exact Hs.
Qed.

Lemma load_n_ok_inv {A} : forall k (m : mem A) a l,
  load_n k m a = Ok l ->
  length l = k /\ forall j d, (j < k)%nat -> m (a + Z.of_nat j) = Some (nth j l d).
Proof.
  induction k as [|k IH]; intros m a l H; cbn [load_n] in H.
  - inversion H; subst. split; [reflexivity|intros; lia].
  - unfold load in H. destruct (m a) as [x|] eqn:E; [|discriminate]. cbn [bind] in H.
    destruct (load_n k m (a + 1)) as [r|] eqn:Er; [|discriminate]. cbn [bind] in H.
    inversion H; subst l. destruct (IH _ _ _ Er) as [L G]. split; [cbn; lia|].
    intros [|j] d Hj.
    + rewrite Z.add_0_r. exact E.
    + cbn [nth]. rewrite <- (G j d ltac:(lia)). f_equal. lia.
Qed.

Lemma load_n_fault {A} : forall k (m : mem A) a j,
  (j < k)%nat -> m (a + Z.of_nat j) = None ->
  exists b, load_n k m a = Fault (OutOfBounds b).
Proof.
  induction k as [|k IH]; intros m a j Hj H; [lia|]. cbn [load_n]. unfold load.
  destruct (m a) as [x|] eqn:E; cbn [bind]; [|eauto].
  destruct j as [|j].
  - rewrite Z.add_0_r in H. congruence.
  - destruct (IH m (a + 1) j) as [b Hb]; [lia| |rewrite Hb; cbn [bind]; eauto].
    rewrite <- H. f_equal. lia.
Qed.

(** Writing the next run of elements. *)
Lemma store_list_wr {A} (m : mem A) out v : forall (l : list A) (d : A) K m1,
  0 <= K ->
  meq m1 (wr m out K v) ->
  accessible m (out + K) (Z.of_nat (length l)) ->
  (forall j, (j < length l)%nat -> nth j l d = v (K + Z.of_nat j)) ->
  exists m2, store_list m1 (out + K) l = Ok m2 /\
             meq m2 (wr m out (K + Z.of_nat (length l)) v).
Proof.
  induction l as [|x r IH]; intros d K m1 HK Hm Ha Hv; cbn [store_list length].
  - exists m1. split; [reflexivity|]. rewrite Z.add_0_r. exact Hm.
  - unfold store. rewrite Hm.
    rewrite wr_out by lia.
    destruct (Ha 0) as [y Hy]; [cbn [length]; lia|].
    rewrite Z.add_0_r in Hy. rewrite Hy. cbn [bind].
    pose proof (Hv O ltac:(cbn; lia)) as Hx. cbn in Hx. rewrite Z.add_0_r in Hx.
    assert (Hm' : meq (upd m1 (out + K) x) (wr m out (K + 1) v)).
    { intro a. unfold upd. destruct (Z.eqb_spec a (out + K)) as [->|N].
      - rewrite wr_in by lia. congruence.
      - rewrite Hm. unfold wr.
        destruct (Z.leb_spec out a); [|reflexivity]. cbn.
        destruct (Z.ltb_spec a (out + K)), (Z.ltb_spec a (out + (K + 1))); try reflexivity; lia. }
    replace (out + K + 1) with (out + (K + 1)) by lia.
    replace (K + Z.of_nat (S (length r))) with (K + 1 + Z.of_nat (length r)) by lia.
    apply (IH d (K + 1)); [lia|exact Hm'| |].
    + intros i Hi. destruct (Ha (i + 1)) as [z Hz]; [cbn [length]; lia|].
      exists z. rewrite <- Hz. f_equal. lia.
    + intros j Hj.
      pose proof (Hv (S j) ltac:(cbn; lia)) as Hs. cbn [nth] in Hs. rewrite Hs. f_equal. lia.
Qed.

Lemma store_wr {A} (m : mem A) out v K m1 x :
  0 <= K -> meq m1 (wr m out K v) -> (exists y, m (out + K) = Some y) -> x = v K ->
  exists m2, store m1 (out + K) x = Ok m2 /\ meq m2 (wr m out (K + 1) v).
Proof.
  intros HK Hm [y Hy] Hx.
  destruct (store_list_wr m out v [x] x K m1) as (m2 & E & G); auto.
  - intros i Hi. cbn [length] in Hi. assert (i = 0) by lia. subst i. rewrite Z.add_0_r. eauto.
  - intros j Hj. cbn [length] in Hj. assert (j = O) by lia. subst j. cbn. rewrite Z.add_0_r. auto.
  - cbn [store_list length] in E, G.
    destruct (store m1 (out + K) x) as [m3|e]; [|discriminate]. cbn [bind] in E.
    inversion E; subst. eauto.
Qed.

(** Stores never change which cells are valid. *)
Definition same_dom {A} (m1 m2 : mem A) : Prop := forall a, m1 a = None <-> m2 a = None.

Lemma same_dom_refl {A} (m : mem A) : same_dom m m.
Proof. intro a; tauto. Qed.
Lemma same_dom_trans {A} (m1 m2 m3 : mem A) : same_dom m1 m2 -> same_dom m2 m3 -> same_dom m1 m3.
Proof. intros H1 H2 a. rewrite (H1 a). apply H2. Qed.

Lemma store_same_dom {A} (m m' : mem A) a x : store m a x = Ok m' -> same_dom m m' /\ m a <> None.
Proof.
  unfold store. destruct (m a) eqn:E; [|discriminate]. intros H; inversion H; subst.
  split; [|congruence]. intro b. unfold upd. destruct (Z.eqb_spec b a); subst; [|tauto].
  split; congruence.
Qed.

Lemma store_list_same_dom {A} : forall l (m m' : mem A) a,
  store_list m a l = Ok m' ->
  same_dom m m' /\ forall j, (j < length l)%nat -> m (a + Z.of_nat j) <> None.
Proof.
  induction l as [|x r IH]; intros m m' a H; cbn [store_list] in H.
  - inversion H; subst. split; [apply same_dom_refl|cbn; intros; lia].
  - destruct (store m a x) as [m1|] eqn:E; [|discriminate]. cbn [bind] in H.
    destruct (store_same_dom _ _ _ _ E) as [D1 V]. destruct (IH _ _ _ H) as [D2 V2].
    split; [eapply same_dom_trans; eauto|].
    intros [|j] Hj.
    + rewrite Z.add_0_r. exact V.
    + intro C. apply D1 in C. apply (V2 j); [cbn in Hj; lia|]. rewrite <- C. f_equal. lia.
Qed.

(** From the functional form of the result to the specification. *)
Lemma writes_exactly_of_wr {A} (m m' : mem A) out n v vo :
  meq m' (wr m out n v) ->
  (forall i, 0 <= i < n -> vo i = Some (v i)) ->
  writes_exactly m m' out n vo.
Proof.
  intros Hm Hv. split.
  - intros i Hi. rewrite Hm, wr_in by lia. rewrite Hv by lia. split; [reflexivity|discriminate].
  - intros a Ha. rewrite Hm. apply wr_out. lia.
Qed.

Lemma writes_exactly_unique {A} (m m1 m2 : mem A) out n v :
  writes_exactly m m1 out n v -> writes_exactly m m2 out n v -> meq m1 m2.
Proof.
  intros [H1 G1] [H2 G2] a.
  destruct (Z_lt_dec a out) as [L|L]; [rewrite G1, G2 by lia; reflexivity|].
  destruct (Z_lt_dec a (out + n)) as [M|M].
  - replace a with (out + (a - out)) by lia.
    destruct (H1 (a - out)) as [E1 _]; [lia|]. destruct (H2 (a - out)) as [E2 _]; [lia|]. congruence.
  - rewrite G1, G2 by lia. reflexivity.
Qed.

(** Vector accesses at aligned addresses. *)
Lemma vaddr_aligned B p : aligned B p -> vaddr (aligned_rule B) B p = Ok p.
Proof.
  unfold aligned. intros [q Hq].
  destruct B; cbn [aligned_rule align_req] in *; cbn [vaddr]; try reflexivity;
    cbn [vsize];
    match goal with |- context [?a mod ?b] => replace (a mod b) with 0 by (subst p; symmetry; apply Z_mod_mult) end;
    try reflexivity.
  cbn. f_equal. lia.
Qed.

Lemma vaddr_unaligned B p : B <> ALTIVEC32 -> vaddr (unaligned_rule B) B p = Ok p.
Proof. destruct B; intros; try reflexivity. congruence. Qed.

Lemma align_req_divides_size B : (align_req B | Z.of_nat (vsize B)).
Proof. destruct B; cbn; first [exists 1; reflexivity | exists 4; reflexivity]. Qed.

Lemma aligned_step B p k : aligned B p -> aligned B (p + k * Z.of_nat (vsize B)).
Proof.
  intros H. apply Z.divide_add_r; [exact H|].
  apply Z.divide_mul_r, align_req_divides_size.
Qed.

Lemma vsize_pos B : (0 < vsize B)%nat.
Proof. destruct B; cbn; lia. Qed.

Lemma loop_unit_spec B : samples_per_loop B = loop_unit B.
Proof. destruct B; reflexivity. Qed.

Lemma vecs_per_loop_spec B :
  Z.of_nat (vecs_per_loop B) * Z.of_nat (vsize B) = loop_unit B /\ (0 < vecs_per_loop B)%nat.
Proof.
  destruct B; cbn; split; try reflexivity; unfold vecs_per_loop; cbn; lia.
Qed.

Lemma loop_unit_pos B : 0 < loop_unit B.
Proof. destruct B; cbn; lia. Qed.
