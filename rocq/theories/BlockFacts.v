(** Loops over vectors, block by block.  Proof device only. *)
From Coq Require Import ZArith List Lia Bool.
From Verif Require Import Base Mem Loop Backend Args Spec LoopFacts MemFacts KaryFacts DriverFacts DriverClaims MemFuns.
Import ListNotations.
Local Open Scope Z_scope.

(** * Vectors as functions of the lane *)
Section Lanes.
Context {A : Type} (B : backend).

(** Proof auxiliary: a register whose lane k holds [g k]. *)
Definition lanesf (g : nat -> A) : list A := map g (seq 0 (vsize B)).

Lemma lanesf_length g : length (lanesf g) = vsize B.
Proof. unfold lanesf. rewrite map_length, seq_length. reflexivity. Qed.

Lemma nth_lanesf g d l : (l < vsize B)%nat -> nth l (lanesf g) d = g l.
Proof.
  intros H. unfold lanesf. rewrite (nth_indep _ d (g 0%nat)) by (rewrite map_length, seq_length; lia).
  rewrite (map_nth g), seq_nth by lia. reflexivity.
Qed.

Lemma lanesf_ext g h : (forall l, (l < vsize B)%nat -> g l = h l) -> lanesf g = lanesf h.
Proof. intros H. unfold lanesf. apply map_ext_in. intros l Hl. apply in_seq in Hl. apply H. lia. Qed.

Lemma lanesf_nth (l : list A) d : length l = vsize B -> l = lanesf (fun j => nth j l d).
Proof.
  intros H. apply (nth_ext _ _ d d); [rewrite lanesf_length; exact H|].
  intros j Hj. rewrite nth_lanesf by lia. reflexivity.
Qed.

Lemma map_seq_map2 {X Y W} (f : X -> Y -> W) g h : forall k s,
  map2 f (map g (seq s k)) (map h (seq s k)) = map (fun l => f (g l) (h l)) (seq s k).
Proof. induction k as [|k IH]; intro s; cbn; [reflexivity|]. rewrite IH. reflexivity. Qed.

Lemma map2_lanesf (f : A -> A -> A) g h : map2 f (lanesf g) (lanesf h) = lanesf (fun l => f (g l) (h l)).
Proof. apply map_seq_map2. Qed.

Lemma map_lanesf (f : A -> A) g : map f (lanesf g) = lanesf (fun l => f (g l)).
Proof. unfold lanesf. apply map_map. Qed.

Lemma set_vec_lanesf x : set_vec B x = lanesf (fun _ => x).
Proof. unfold lanesf. destruct B; reflexivity. Qed.
End Lanes.

Lemma lanesf_inj_ext {A} (B : backend) (l : list A) g d :
  length l = vsize B -> (forall j, (j < vsize B)%nat -> nth j l d = g j) -> l = lanesf B g.
Proof.
  intros H1 H2. rewrite (lanesf_nth B l d H1). apply lanesf_ext. exact H2.
Qed.

(** * Vector accesses *)
Section Access.
Context {A : Type} (B : backend).
Local Notation step := (Z.of_nat (vsize B)).

Lemma vaddr_al (al : bool) p : access_ok B al p ->
  vaddr (if al then aligned_rule B else unaligned_rule B) B p = Ok p.
Proof.
  intros H. destruct al.
  - apply vaddr_aligned. apply H. left. reflexivity.
  - destruct B; try reflexivity. apply (vaddr_aligned ALTIVEC32). apply H. right. reflexivity.
Qed.

Lemma access_ok_step al p k : access_ok B al p -> access_ok B al (p + k * step).
Proof. intros H G. apply aligned_step. apply H. exact G. Qed.

Lemma load_al_spec (al : bool) (m1 : mem A) a g :
  access_ok B al a -> (forall l, (l < vsize B)%nat -> m1 (a + Z.of_nat l) = Some (g l)) ->
  load_al B al m1 a = Ok (lanesf B g).
Proof.
  intros Ha H. pose proof (vaddr_al al a Ha) as E.
  assert (Hd : exists d : A, True) by (exists (g 0%nat); exact I). destruct Hd as [d _].
  assert (L : load_n (vsize B) m1 a = Ok (lanesf B g)).
  { apply (load_n_spec _ _ _ _ d); [apply lanesf_length|].
    intros j Hj. rewrite H by lia. rewrite nth_lanesf by lia. reflexivity. }
  unfold load_al, vload_aligned, vload. destruct al; rewrite E; cbn [bind]; exact L.
Qed.

Lemma store_al_spec (al : bool) (m m1 : mem A) out v N J g :
  access_ok B al out -> accessible m out (Z.of_nat N * step) -> (J < N)%nat ->
  meq m1 (wr m out (Z.of_nat J * step) v) ->
  (forall l, (l < vsize B)%nat -> g l = v (Z.of_nat J * step + Z.of_nat l)) ->
  exists m2, store_al B al m1 (out + Z.of_nat J * step) (lanesf B g) = Ok m2 /\
             meq m2 (wr m out (Z.of_nat (S J) * step) v).
Proof.
  intros Ha Hacc HJ Hm Hg. pose proof (vaddr_al al _ (access_ok_step al out (Z.of_nat J) Ha)) as E.
  pose proof (vsize_pos B) as HB.
  destruct (store_list_wr m out v (lanesf B g) (g 0%nat) (Z.of_nat J * step) m1)
    as (m2 & E2 & G2); auto; [lia| | |].
  - rewrite lanesf_length. intros i Hi. destruct (Hacc (Z.of_nat J * step + i)) as [x Hx]; [nia|].
    exists x. rewrite <- Hx. f_equal. lia.
  - rewrite lanesf_length. intros j Hj. rewrite nth_lanesf by lia. apply Hg. exact Hj.
  - exists m2. split.
    + unfold store_al, vstore_aligned, vstore. destruct al; rewrite E; cbn [bind]; exact E2.
    + intro a. rewrite G2, lanesf_length. f_equal. lia.
Qed.

Lemma vload_al_true (m : mem A) a : vload_aligned B m a = load_al B true m a.
Proof. reflexivity. Qed.
Lemma vstore_al_true (m : mem A) a v : vstore_aligned B m a v = store_al B true m a v.
Proof. reflexivity. Qed.
Lemma aligned_access p : aligned B p -> access_ok B true p.
Proof. intros H _. exact H. Qed.

(** * Blocks of vectors *)
Lemma iter_blocks {S} (blk stp : S -> res S) k :
  (forall s, blk s = iter_res k stp s) -> forall T s, iter_res T blk s = iter_res (T * k) stp s.
Proof.
  intros H. induction T as [|T IH]; intro s; cbn [iter_res Nat.mul]; [reflexivity|].
  rewrite iter_res_add, H. destruct (iter_res k stp s); cbn [bind]; auto.
Qed.

Lemma legal_count n : legal_simd_length B n ->
  1 <= n / samples_per_loop B < two32 /\
  (Z.to_nat (n / samples_per_loop B) * vecs_per_loop B)%nat = Z.to_nat (n / step) /\
  Z.of_nat (Z.to_nat (n / step)) * step = n.
Proof.
  intros Hn. pose proof (vecs_of_legal B n Hn) as [Hk Hkn].
  destruct Hn as [[H1 H2] [q Hq]]. rewrite loop_unit_spec.
  destruct (vecs_per_loop_spec B) as [HV HV0]. pose proof (loop_unit_pos B). pose proof (vsize_pos B).
  assert (Hd : n / loop_unit B = q) by (subst n; apply Z.div_mul; lia).
  rewrite Hd, two32_eq. assert (1 <= q) by nia. split; [nia|]. split; [|exact Hkn].
  apply Nat2Z.inj. rewrite Nat2Z.inj_mul, Z2Nat.id by lia.
  apply (Z.mul_cancel_r _ _ step); [lia|]. rewrite Hkn. rewrite <- Z.mul_assoc, HV. lia.
Qed.

Lemma dw_blocks {S} (blk stp : S -> res S) n s :
  legal_simd_length B n ->
  (forall s, blk s = iter_res (vecs_per_loop B) stp s) ->
  do_while blk (n / samples_per_loop B) s = iter_res (Z.to_nat (n / step)) stp s.
Proof.
  intros Hn H. destruct (legal_count n Hn) as (H1 & H2 & _).
  rewrite do_while_iter by assumption. rewrite (iter_blocks blk stp _ H). rewrite H2. reflexivity.
Qed.

Lemma per_loop_step k : k = vecs_per_loop B -> Z.of_nat k * step = samples_per_loop B.
Proof. intros ->. rewrite loop_unit_spec. apply vecs_per_loop_spec. Qed.
End Access.

(** A loop that writes [w] elements of [v] per step. *)
Lemma writer {A S} (w : Z) (stp : S -> res S) (m : mem A) out v (st : nat -> mem A -> S) N :
  (forall J m1, (J < N)%nat -> meq m1 (wr m out (Z.of_nat J * w) v) ->
     exists m2, stp (st J m1) = Ok (st (Datatypes.S J) m2) /\
                meq m2 (wr m out (Z.of_nat (Datatypes.S J) * w) v)) ->
  exists m', iter_res N stp (st O m) = Ok (st N m') /\
             meq m' (wr m out (Z.of_nat N * w) v).
Proof.
  intros H.
  destruct (iter_res_inv stp (fun J s => exists m1, s = st J m1 /\
              meq m1 (wr m out (Z.of_nat J * w) v)) N) with (s := st O m)
    as (s' & E & m' & -> & G).
  - intros J s HJ (m1 & -> & Hm). destruct (H J m1 HJ Hm) as (m2 & E & G). eauto.
  - exists m. split; [reflexivity|]. cbn [Z.of_nat Z.mul]. apply meq_wr_0.
  - eauto.
Qed.

(** A scalar do-while loop that writes one element per iteration. *)
Lemma swriter {A S} (stp : S -> res S) (m : mem A) out v (st : nat -> mem A -> S) n :
  0 < n < 2 ^ 32 ->
  (forall J m1, Z.of_nat J < n -> meq m1 (wr m out (Z.of_nat J) v) ->
     exists m2, stp (st J m1) = Ok (st (Datatypes.S J) m2) /\
                meq m2 (wr m out (Z.of_nat J + 1) v)) ->
  exists m', do_while stp n (st O m) = Ok (st (Z.to_nat n) m') /\ meq m' (wr m out n v).
Proof.
  intros Hn H. rewrite do_while_iter by (rewrite two32_eq; lia).
  destruct (writer 1 stp m out v st (Z.to_nat n)) as (m' & E & G).
  - intros J m1 HJ Hm. destruct (H J m1) as (m2 & E & G); [lia| |].
    + intro a. rewrite Hm. f_equal. lia.
    + exists m2. split; [exact E|]. intro a. rewrite G. f_equal. lia.
  - exists m'. split; [exact E|]. intro a. rewrite G. f_equal. lia.
Qed.

(** Storing the next element of [v]. *)
Lemma store_next {A} (m m1 : mem A) out v n J x :
  accessible m out n -> Z.of_nat J < n -> meq m1 (wr m out (Z.of_nat J) v) -> x = v (Z.of_nat J) ->
  exists m2, store m1 (out + Z.of_nat J) x = Ok m2 /\ meq m2 (wr m out (Z.of_nat J + 1) v).
Proof.
  intros Hacc HJ Hm Hx. apply store_wr; auto; [lia|]. apply Hacc. lia.
Qed.

(** Reading a cell at or above the write position. *)
Lemma load_next {A} d (m m1 : mem A) out v n J p :
  accessible m p n -> Z.of_nat J < n -> out <= p \/ p + n <= out ->
  meq m1 (wr m out (Z.of_nat J) v) ->
  load m1 (p + Z.of_nat J) = Ok (cell d m (p + Z.of_nat J)).
Proof.
  intros Hacc HJ Ho Hm. unfold load. rewrite Hm, wr_out by lia. unfold cell.
  destruct (Hacc (Z.of_nat J)) as [x Hx]; [lia|]. rewrite Hx. reflexivity.
Qed.

Lemma vload_next {A} B al d (m m1 : mem A) out v N J K p :
  access_ok B al p ->
  accessible m p (Z.of_nat N * Z.of_nat (vsize B)) -> (J < N)%nat -> (K <= J)%nat ->
  out <= p \/ p + Z.of_nat N * Z.of_nat (vsize B) <= out ->
  meq m1 (wr m out (Z.of_nat K * Z.of_nat (vsize B)) v) ->
  load_al B al m1 (p + Z.of_nat J * Z.of_nat (vsize B))
  = Ok (lanesf B (fun l => cell d m (p + (Z.of_nat J * Z.of_nat (vsize B) + Z.of_nat l)))).
Proof.
  intros Ha Hacc HJ HK Ho Hm. pose proof (vsize_pos B) as HB. apply load_al_spec.
  - apply access_ok_step. exact Ha.
  - intros l Hl. rewrite Hm, wr_out by nia. unfold cell.
    destruct (Hacc (Z.of_nat J * Z.of_nat (vsize B) + Z.of_nat l)) as [x Hx]; [nia|].
    rewrite Hx. rewrite <- Hx. f_equal. lia.
Qed.

Lemma cell_some {A} d (m : mem A) p n i : accessible m p n -> 0 <= i < n ->
  m (p + i) = Some (cell d m (p + i)).
Proof. intros H Hi. unfold cell. destruct (H i Hi) as [x Hx]. rewrite Hx. reflexivity. Qed.

Lemma leaves_of_wr {A} (m m' : mem A) r out n v vo :
  r = Ok m' -> meq m' (wr m out n v) -> (forall i, 0 <= i < n -> vo i = Some (v i)) ->
  leaves m r out n vo.
Proof. intros H1 H2 H3. exists m'. split; [exact H1|]. eapply writes_exactly_of_wr; eassumption. Qed.

Ltac tup :=
  match goal with |- Ok _ = Ok _ => apply f_equal | _ => idtac end;
  repeat match goal with |- (_, _) = (_, _) => apply f_equal2 end; try reflexivity; try lia.
