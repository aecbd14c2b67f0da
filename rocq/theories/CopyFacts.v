(** The SIMD copy functions: what they write and what they read. *)
From Coq Require Import ZArith List Lia Bool.
From Verif Require Import Base Mem Loop Backend Args Spec LoopFacts MemFacts KaryFacts DriverFacts
  FaultFacts DriverClaims OverlapFacts MemFuns BlockFacts.
Import ListNotations.
Local Open Scope Z_scope.

Section Copy.
Context {A : Type} (B : backend) (sa da : bool).
Local Notation vec := (list A).
Local Notation step := (Z.of_nat (vsize B)).
Local Notation V := (vecs_per_loop B).

Lemma load_al_any (m m1 : mem A) a :
  access_ok B sa a -> same_dom m m1 -> accessible m a step -> exists val, load_al B sa m1 a = Ok val.
Proof.
  intros Ha D Hacc. pose proof (vaddr_al B sa a Ha) as E.
  destruct (load_n_accessible m1 (vsize B) a) as [l L].
  { intros i Hi. destruct (Hacc i Hi) as [x Hx].
    destruct (m1 (a + i)) eqn:E1; [eauto|]. apply D in E1. congruence. }
  exists l. unfold load_al, vload_aligned, vload. destruct sa; rewrite E; exact L.
Qed.

Lemma wr_same_dom (m m1 : mem A) out K v :
  accessible m out K -> meq m1 (wr m out K v) -> same_dom m m1.
Proof.
  intros Hacc Hm a. rewrite Hm. unfold wr.
  destruct (Z.leb_spec out a); [|reflexivity].
  destruct (Z.ltb_spec a (out + K)); [|reflexivity]. cbn [andb].
  destruct (Hacc (a - out)) as [x Hx]; [lia|]. replace (out + (a - out)) with a in Hx by lia.
  split; congruence.
Qed.

Lemma accessible_sub {X} (m : mem X) p n q k :
  accessible m p n -> p <= q -> q + k <= p + n -> accessible m q k.
Proof.
  intros H H1 H2 i Hi. destruct (H (q + i - p)) as [x Hx]; [lia|].
  exists x. rewrite <- Hx. f_equal. lia.
Qed.

Section Values.
Context (d : A) (m : mem A) (dst src : Z) (N : nat).
Local Notation v := (fun i => cell d m (src + i)).
Context (Hsa : access_ok B sa src) (Hda : access_ok B da dst)
        (Hd : accessible m dst (Z.of_nat N * step))
        (Hs : accessible m src (Z.of_nat N * step + step))
        (Hov : dst <= src \/ src + Z.of_nat N * step <= dst).

Lemma copy_mp_ok : forall k J m1 loaded, (J + k <= N)%nat ->
  meq m1 (wr m dst (Z.of_nat J * step) v) ->
  (k <> O -> loaded = lanesf B (fun l => v (Z.of_nat J * step + Z.of_nat l))) ->
  exists m2, copy_mp B sa da k m1 (dst + Z.of_nat J * step) (src + Z.of_nat (S J) * step) loaded = Ok m2 /\
             meq m2 (wr m dst (Z.of_nat (J + k) * step) v).
Proof using Hsa Hda Hd Hs Hov.
  pose proof (vsize_pos B) as HB.
  induction k as [|k IH]; intros J m1 loaded HJ Hm Hl; cbn [copy_mp].
  - exists m1. split; [reflexivity|]. rewrite Nat.add_0_r. exact Hm.
  - assert (D : same_dom m m1).
    { eapply wr_same_dom; [|exact Hm]. eapply accessible_sub; [exact Hd|lia|nia]. }
    destruct (load_al_any m m1 (src + Z.of_nat (S J) * step)) as [val Hv];
      [apply access_ok_step, Hsa|exact D|eapply accessible_sub; [exact Hs|nia|nia]|].
    rewrite Hv. cbn [bind]. rewrite Hl by discriminate.
    destruct (store_al_spec B da m m1 dst v N J (fun l => v (Z.of_nat J * step + Z.of_nat l)) Hda Hd
                ltac:(lia) Hm ltac:(reflexivity)) as (m2 & E & G).
    rewrite E. cbn [bind].
    destruct (IH (S J) m2 val) as (m3 & E3 & G3); [lia|exact G| |].
    + intros Hk. assert (Hv' := vload_next B sa d m m1 dst v N (S J) J src Hsa).
      rewrite Hv' in Hv; [inversion Hv; reflexivity| |lia|lia|exact Hov|exact Hm].
      eapply accessible_sub; [exact Hs|lia|lia].
    + exists m3. split.
      * rewrite <- E3. f_equal; lia.
      * replace (J + S k)%nat with (S J + k)%nat by lia. exact G3.
Qed.

Lemma copy_run_ok k J m1 : (J + k <= N)%nat ->
  meq m1 (wr m dst (Z.of_nat J * step) v) ->
  exists m2, copy_run B sa da k m1 (dst + Z.of_nat J * step) (src + Z.of_nat J * step) = Ok m2 /\
             meq m2 (wr m dst (Z.of_nat (J + k) * step) v).
Proof using Hsa Hda Hd Hs Hov.
  intros HJ Hm. unfold copy_run. pose proof (vsize_pos B) as HB.
  assert (D : same_dom m m1).
  { eapply wr_same_dom; [|exact Hm]. eapply accessible_sub; [exact Hd|lia|nia]. }
  destruct (load_al_any m m1 (src + Z.of_nat J * step)) as [val Hv];
    [apply access_ok_step, Hsa|exact D|eapply accessible_sub; [exact Hs|nia|nia]|].
  rewrite Hv. cbn [bind].
  destruct (copy_mp_ok k J m1 val HJ Hm) as (m2 & E2 & G2).
  - intros Hk. assert (Hv' := vload_next B sa d m m1 dst v N J J src Hsa).
    rewrite Hv' in Hv; [inversion Hv; reflexivity| |lia|lia|exact Hov|exact Hm].
    eapply accessible_sub; [exact Hs|lia|lia].
  - exists m2. split; [|exact G2]. rewrite <- E2. f_equal. lia.
Qed.
End Values.

Lemma copy_ct_ok (m : mem A) dst src k :
  access_ok B sa src -> access_ok B da dst ->
  accessible m dst (Z.of_nat k * step) -> accessible m src (Z.of_nat k * step + step) ->
  overlap_ok (A := A) dst (APtr src) (Z.of_nat k * step) ->
  leaves m (copy_run B sa da k m dst src) dst (Z.of_nat k * step) (fun i => m (src + i)).
Proof.
  intros Hsa Hda Hd Hs Hov. pose proof (vsize_pos B) as HB.
  destruct (Hs 0) as [d _]; [nia|].
  destruct (copy_run_ok d m dst src k Hsa Hda Hd Hs Hov k 0 m) as (m2 & E & G); [lia|apply meq_wr_0|].
  cbn [Nat.add] in G. cbn [Z.of_nat Z.mul] in E. rewrite !Z.add_0_r in E.
  eapply leaves_of_wr; [exact E|exact G|]. intros i Hi. apply (cell_some d m src _ i Hs). lia.
Qed.

Lemma copy_rt_ok (m : mem A) dst src n :
  legal_simd_length B n ->
  access_ok B sa src -> access_ok B da dst ->
  accessible m dst n -> accessible m src (n + step) ->
  overlap_ok (A := A) dst (APtr src) n ->
  leaves m (copyvec_simd_gen B sa da m dst src n) dst n (fun i => m (src + i)).
Proof.
  intros Hn Hsa Hda Hd Hs Hov. unfold copyvec_simd_gen. pose proof (vsize_pos B) as HB.
  match goal with |- context [do_while ?b _ _] => set (body := b) end.
  destruct (legal_count B n Hn) as (H1 & HTV & Hkn). rewrite do_while_iter by assumption.
  set (T := Z.to_nat (n / samples_per_loop B)) in *. set (N := Z.to_nat (n / step)) in *.
  destruct (Hs 0) as [d _]; [lia|].
  destruct (writer (samples_per_loop B) body m dst (fun i => cell d m (src + i))
     (fun J m1 => (m1, dst + Z.of_nat J * samples_per_loop B, src + Z.of_nat J * samples_per_loop B)) T)
    as (m' & E & G).
  - intros J m1 HJ Hm. cbv beta iota delta [body].
    pose proof (per_loop_step B _ eq_refl) as HV. rewrite <- HV in *.
    destruct (copy_run_ok d m dst src N) with (k := V) (J := (J * V)%nat) (m1 := m1) as (m2 & E & G);
      try rewrite Hkn; auto.
    + nia.
    + intro a. rewrite Hm. f_equal. lia.
    + exists m2. replace (Z.of_nat (J * V) * step) with (Z.of_nat J * (Z.of_nat V * step)) in E by lia.
      rewrite E. cbn [bind]. split; [tup|]. intro a. rewrite G. f_equal. lia.
  - cbv beta in E. cbn [Z.of_nat Z.mul] in E. rewrite !Z.add_0_r in E. rewrite E. cbn [bind].
    assert (HT : Z.of_nat T * samples_per_loop B = n).
    { rewrite <- (per_loop_step B _ eq_refl). nia. }
    rewrite HT in G. eapply leaves_of_wr; [reflexivity|exact G|].
    intros i Hi. apply (cell_some d m src _ i Hs). lia.
Qed.

(** ** What is read *)
Lemma load_n_ok_present : forall k (m : mem A) a l, load_n k m a = Ok l ->
  length l = k /\ forall j, 0 <= j < Z.of_nat k -> m (a + j) <> None.
Proof.
  induction k as [|k IH]; intros m a l H; cbn [load_n] in H.
  - inversion H. split; [reflexivity|lia].
  - destruct (load m a) eqn:E1; cbn [bind] in H; [|discriminate].
    destruct (load_n k m (a + 1)) eqn:E2; cbn [bind] in H; [|discriminate]. inversion H; subst.
    destruct (IH _ _ _ E2) as [HL P]. split; [cbn; congruence|].
    intros j Hj. destruct (Z.eq_dec j 0) as [->|Hj0].
    + rewrite Z.add_0_r. unfold load in E1. destruct (m a); congruence.
    + replace (a + j) with (a + 1 + (j - 1)) by lia. apply P. lia.
Qed.

Lemma load_al_outcome (m : mem A) a : access_ok B sa a ->
  (exists v, load_al B sa m a = Ok v /\ length v = vsize B /\ forall j, 0 <= j < step -> m (a + j) <> None)
  \/ exists e, load_al B sa m a = Fault e /\ memfault e.
Proof.
  intros Ha. pose proof (vaddr_al B sa a Ha) as E.
  assert (L : load_al B sa m a = load_n (vsize B) m a)
    by (unfold load_al, vload_aligned, vload; destruct sa; rewrite E; reflexivity).
  rewrite L. destruct (load_n (vsize B) m a) as [v|e] eqn:EL.
  - left. exists v. destruct (load_n_ok_present _ _ _ _ EL). auto.
  - right. exists e. split; [reflexivity|]. destruct (load_n_fault_kind _ _ _ _ EL) as [b ->]. exact I.
Qed.

Lemma store_al_outcome (m : mem A) a v :
  (exists m', store_al B da m a v = Ok m' /\ same_dom m m')
  \/ exists e, store_al B da m a v = Fault e /\ memfault e.
Proof.
  unfold store_al, vstore_aligned, vstore.
  destruct da;
  match goal with |- context [vaddr ?r B a] => destruct (vaddr r B a) as [a'|e] eqn:Ea end; cbn [bind].
  1,3: destruct (store_list m a' v) as [m'|e] eqn:E;
    [left; exists m'; split; [reflexivity|apply (store_list_same_dom _ _ _ _ E)]
    |right; exists e; split; [reflexivity|destruct (store_list_fault_kind _ _ _ _ E) as [b ->]; exact I]].
  all: right; exists e; split; [reflexivity|]; apply vaddr_fault in Ea; subst; exact I.
Qed.

Lemma copy_mp_outcome : forall k (m : mem A) dst src loaded, access_ok B sa src ->
  (exists m', copy_mp B sa da k m dst src loaded = Ok m' /\ same_dom m m' /\
              forall i, 0 <= i < Z.of_nat k * step -> m (src + i) <> None)
  \/ exists e, copy_mp B sa da k m dst src loaded = Fault e /\ memfault e.
Proof.
  pose proof (vsize_pos B) as HB.
  induction k as [|k IH]; intros m dst src loaded Ha; cbn [copy_mp].
  - left. exists m. split; [reflexivity|]. split; [apply same_dom_refl|lia].
  - destruct (load_al_outcome m src Ha) as [(v & E & _ & P)|(e & E & F)]; rewrite E; cbn [bind]; [|eauto].
    destruct (store_al_outcome m dst loaded) as [(m1 & E1 & D1)|(e & E1 & F)]; rewrite E1; cbn [bind]; [|eauto].
    destruct (IH m1 (dst + step) (src + step) v) as [(m2 & E2 & D2 & P2)|(e & E2 & F)].
    + pose proof (access_ok_step B sa src 1 Ha) as H. rewrite Z.mul_1_l in H. exact H.
    + left. exists m2. split; [exact E2|]. split; [eapply same_dom_trans; eauto|].
      intros i Hi. destruct (Z_lt_ge_dec i step) as [Hs|Hs]; [apply P; lia|].
      intro C. apply D1 in C. revert C. replace (src + i) with (src + step + (i - step)) by lia.
      apply P2. lia.
    + right. eauto.
Qed.

Lemma copy_run_outcome k (m : mem A) dst src : access_ok B sa src ->
  (exists m', copy_run B sa da k m dst src = Ok m' /\ same_dom m m' /\
              forall i, 0 <= i < Z.of_nat k * step + step -> m (src + i) <> None)
  \/ exists e, copy_run B sa da k m dst src = Fault e /\ memfault e.
Proof.
  intros Ha. unfold copy_run.
  destruct (load_al_outcome m src Ha) as [(v & E & _ & P)|(e & E & F)]; rewrite E; cbn [bind]; [|eauto].
  destruct (copy_mp_outcome k m dst (src + step) v) as [(m2 & E2 & D2 & P2)|(e & E2 & F)].
  - pose proof (access_ok_step B sa src 1 Ha) as H. rewrite Z.mul_1_l in H. exact H.
  - left. exists m2. split; [exact E2|]. split; [exact D2|]. intros i Hi.
    destruct (Z_lt_ge_dec i step) as [Hs|Hs]; [apply P; lia|].
    replace (src + i) with (src + step + (i - step)) by lia. apply P2. lia.
  - right. eauto.
Qed.

Lemma copy_ct_short (m : mem A) dst src k i : access_ok B sa src ->
  0 <= i < Z.of_nat k * step + step -> m (src + i) = None ->
  memory_fault (copy_run B sa da k m dst src).
Proof.
  intros Ha Hi Hm. destruct (copy_run_outcome k m dst src Ha) as [(m' & E & D & P)|(e & E & F)].
  - exfalso. eapply P; eauto.
  - rewrite E. apply memfault_spec. exact F.
Qed.

Lemma copy_rt_short (m : mem A) dst src n i : legal_simd_length B n -> access_ok B sa src ->
  0 <= i < n + step -> m (src + i) = None ->
  memory_fault (copyvec_simd_gen B sa da m dst src n).
Proof.
  intros Hn Ha Hi Hm. unfold copyvec_simd_gen. pose proof (vsize_pos B) as HB.
  match goal with |- context [do_while ?b _ _] => set (body := b) end.
  destruct (legal_count B n Hn) as (H1 & HTV & Hkn). rewrite do_while_iter by assumption.
  set (T := Z.to_nat (n / samples_per_loop B)) in *.
  pose proof (per_loop_step B _ eq_refl) as HV. destruct (vecs_per_loop_spec B) as [_ HV0].
  assert (HT : Z.of_nat T * samples_per_loop B = n) by (rewrite <- HV; nia).
  assert (O : forall T m dst src, access_ok B sa src ->
     (exists s', iter_res T body (m, dst, src) = Ok s' /\ same_dom m (fst (fst s')) /\
        (T <> O -> forall i, 0 <= i < Z.of_nat T * samples_per_loop B + step -> m (src + i) <> None))
     \/ exists e, iter_res T body (m, dst, src) = Fault e /\ memfault e).
  { clear - HV HB. induction T as [|T IH]; intros m dst src Ha; cbn [iter_res].
    - left. eexists. split; [reflexivity|]. split; [apply same_dom_refl|congruence].
    - cbn [body]. destruct (copy_run_outcome V m dst src Ha) as [(m1 & E & D & P)|(e & E & F)];
        rewrite E; cbn [bind]; [|eauto].
      destruct (IH m1 (dst + samples_per_loop B) (src + samples_per_loop B)) as [(s' & E2 & D2 & P2)|X]; [| |eauto].
      + rewrite <- HV. apply access_ok_step. exact Ha.
      + left. exists s'. split; [exact E2|]. split; [eapply same_dom_trans; eauto|].
        intros _ i Hi. destruct (Z_lt_ge_dec i (samples_per_loop B + step)) as [Hs|Hs]; [apply P; lia|].
        destruct T as [|T]; [lia|].
        intro C. apply D in C. revert C.
        replace (src + i) with (src + samples_per_loop B + (i - samples_per_loop B)) by lia.
        apply P2; [discriminate|]. lia. }
  destruct (O T m dst src Ha) as [(s' & E & D & P)|(e & E & F)].
  - exfalso. apply (P ltac:(lia) i); [lia|exact Hm].
  - rewrite E. cbn [bind]. apply memfault_spec. exact F.
Qed.
End Copy.
