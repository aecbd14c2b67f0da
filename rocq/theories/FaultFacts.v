(** Runs that leave valid memory or meet a misaligned pointer. *)
From Coq Require Import ZArith Znumtheory List Lia Bool.
From Verif Require Import Base Mem Loop Backend Args Drivers Spec LoopFacts MemFacts KaryFacts DriverFacts.
Import ListNotations.
Local Open Scope Z_scope.

(** Proof auxiliary: the faults a memory access can raise. *)
Definition memfault (e : fault) : Prop :=
  match e with OutOfBounds _ | Misaligned _ => True | _ => False end.

Lemma memfault_spec {A} e : memfault e -> memory_fault (@Fault A e).
Proof. unfold memory_fault. destruct e; cbn; try contradiction; eauto. Qed.

(** * Memory accesses fault only with memory faults *)
Lemma load_fault {A} (m : mem A) a e : load m a = Fault e -> e = OutOfBounds a.
Proof. unfold load. destruct (m a); congruence. Qed.

Lemma store_fault {A} (m : mem A) a x e : store m a x = Fault e -> e = OutOfBounds a.
Proof. unfold store. destruct (m a); congruence. Qed.

Lemma load_n_fault_kind {A} : forall k (m : mem A) a e, load_n k m a = Fault e -> exists b, e = OutOfBounds b.
Proof.
  induction k; intros m a e H; cbn in H; [discriminate|].
  destruct (load m a) eqn:E; cbn in H; [|inversion H; subst; eauto using load_fault].
  destruct (load_n k m (a + 1)) eqn:E2; cbn in H; [discriminate|]. inversion H; subst. eauto.
Qed.

Lemma store_list_fault_kind {A} : forall l (m : mem A) a e, store_list m a l = Fault e -> exists b, e = OutOfBounds b.
Proof.
  induction l; intros m b e H; cbn in H; [discriminate|].
  destruct (store m b a) eqn:E; cbn in H; [eauto|]. inversion H; subst. eauto using store_fault.
Qed.

Lemma vaddr_fault r B a e : vaddr r B a = Fault e -> e = Misaligned a.
Proof. destruct r; cbn; try discriminate. destruct (_ =? 0); congruence. Qed.

Lemma mapM_cases {X Y} (f : X -> res Y) l :
  (exists ys, mapM f l = Ok ys /\ Forall2 (fun x y => f x = Ok y) l ys) \/
  (exists x e, In x l /\ f x = Fault e /\ mapM f l = Fault e).
Proof.
  induction l as [|x r IH]; cbn [mapM].
  - left. exists []. auto.
  - destruct (f x) as [y|e] eqn:E; cbn [bind].
    + destruct IH as [(ys & -> & F)|(x' & e & Hin & E' & ->)]; cbn [bind].
      * left. exists (y :: ys). auto.
      * right. exists x', e. split; [right; exact Hin|auto].
    + right. exists x, e. split; [left; reflexivity|auto].
Qed.

Lemma Forall2_length {X Y} (P : X -> Y -> Prop) l l' : Forall2 P l l' -> length l = length l'.
Proof. induction 1; cbn; congruence. Qed.

(** * Scalar loops *)
Section Scalar.
Context {A : Type} (ar : arith A).

Lemma sbodyk_fault (f : list A -> A) s e : sbodyk ar f s = Fault e -> exists a, e = OutOfBounds a.
Proof.
  destruct s as [[m out] args]. cbn [sbodyk].
  destruct (mapM_cases (arg_get m) args) as [(ys & -> & _)|(x & e' & _ & E & ->)]; cbn [bind].
  - destruct (store m out (f ys)) eqn:ES; cbn [bind]; [discriminate|].
    intro H; inversion H; subst. eauto using store_fault.
  - intro H; inversion H; subst. destruct x; cbn in E; try discriminate. eauto using load_fault.
Qed.

Lemma iter_fault {S} (body : S -> res S) (P : fault -> Prop) :
  (forall s e, body s = Fault e -> P e) ->
  forall k s e, iter_res k body s = Fault e -> P e.
Proof.
  intros H. induction k as [|k IH]; intros s e E; cbn in E; [discriminate|].
  destruct (body s) eqn:Eb; cbn in E; [eauto|]. inversion E; subst. eauto.
Qed.

(** A loop of [k] iterations whose output lacks a cell ends out of bounds. *)
Lemma iter_sbodyk_short (f : list A -> A) k (m : mem A) out args i :
  0 <= i < Z.of_nat k -> m (out + i) = None ->
  exists a, iter_res k (sbodyk ar f) (m, out, args) = Fault (OutOfBounds a).
Proof.
  intros Hi Hm. destruct (iter_res k (sbodyk ar f) (m, out, args)) as [s'|e] eqn:E.
  - destruct (iter_sbodyk_dom ar f k m out args s' E) as [_ V]. exfalso. eapply V; eauto.
  - destruct (iter_fault (sbodyk ar f) (fun e => exists a, e = OutOfBounds a) (sbodyk_fault f) k _ _ E)
      as [a ->]. eauto.
Qed.

Lemma embed_fault {X Y} (g : X -> Y) (r : res X) (r' : res Y) e :
  r' = rmap g r -> r' = Fault e -> r = Fault e.
Proof. intros H1 H2. destruct r; cbn in H1; congruence. Qed.

Lemma unary_vec_zero f (m : mem A) out inp i :
  0 <= i < 2 ^ 32 -> m (out + i) = None ->
  exists a, unary_vec f m out inp 0 = @Fault (mem A) (OutOfBounds a).
Proof.
  intros Hi Hm. unfold unary_vec, apply_on_vector1. rewrite do_while_zero.
  remember (Z.to_nat two32) as T eqn:HT.
  destruct (m out) as [d|] eqn:Ed.
  - destruct (iter_sbodyk_short (fk1 d f) T m out [APtr inp] i) as [a Ha]; [|exact Hm|].
    { rewrite <- two32_eq in Hi. subst T. rewrite Z2Nat.id; lia. }
    exists a. erewrite (embed_fault _ (iter_res T (sbody1 f) (m, out, inp))); [reflexivity| |exact Ha].
    apply (iter_res_embed (sbody1 f) _ _ (sbody1_embed ar d f) T (m, out, inp)).
  - destruct T as [|T]; [exfalso; assert (0 < two32) by reflexivity; lia|]. cbn [iter_res sbody1].
    unfold load. destruct (m inp); cbn [bind]; [|eauto].
    unfold store. rewrite Ed. cbn [bind]. eauto.
Qed.

Lemma binary_vec_zero f (m : mem A) out a1 a2 i :
  0 <= i < 2 ^ 32 -> m (out + i) = None ->
  exists a, binary_vec ar f m out a1 a2 0 = @Fault (mem A) (OutOfBounds a).
Proof.
  intros Hi Hm. unfold binary_vec, apply_on_vector2. rewrite do_while_zero.
  remember (Z.to_nat two32) as T eqn:HT.
  set (d := a_zero ar).
  destruct (iter_sbodyk_short (fk2 d f) T m out [a1; a2] i) as [a Ha]; [|exact Hm|].
  { rewrite <- two32_eq in Hi. subst T. rewrite Z2Nat.id; lia. }
  exists a. erewrite (embed_fault _ (iter_res T (sbody2 ar f) _)); [reflexivity| |exact Ha].
  apply (iter_res_embed (sbody2 ar f) _ _ (sbody2_embed ar d f) T (m, out, a1, a2)).
Qed.

Lemma ternary_vec_zero f (m : mem A) out a1 a2 a3 i :
  0 <= i < 2 ^ 32 -> m (out + i) = None ->
  exists a, ternary_vec ar f m out a1 a2 a3 0 = @Fault (mem A) (OutOfBounds a).
Proof.
  intros Hi Hm. unfold ternary_vec, apply_on_vector3. rewrite do_while_zero.
  remember (Z.to_nat two32) as T eqn:HT.
  set (d := a_zero ar).
  destruct (iter_sbodyk_short (fk3 d f) T m out [a1; a2; a3] i) as [a Ha]; [|exact Hm|].
  { rewrite <- two32_eq in Hi. subst T. rewrite Z2Nat.id; lia. }
  exists a. erewrite (embed_fault _ (iter_res T (sbody3 ar f) _)); [reflexivity| |exact Ha].
  apply (iter_res_embed (sbody3 ar f) _ _ (sbody3_embed ar d f) T (m, out, a1, a2, a3)).
Qed.

Lemma quaternary_vec_zero f (m : mem A) out a1 a2 a3 a4 i :
  0 <= i < 2 ^ 32 -> m (out + i) = None ->
  exists a, quaternary_vec ar f m out a1 a2 a3 a4 0 = @Fault (mem A) (OutOfBounds a).
Proof.
  intros Hi Hm. unfold quaternary_vec, apply_on_vector4. rewrite do_while_zero.
  remember (Z.to_nat two32) as T eqn:HT.
  set (d := a_zero ar).
  destruct (iter_sbodyk_short (fk4 d f) T m out [a1; a2; a3; a4] i) as [a Ha]; [|exact Hm|].
  { rewrite <- two32_eq in Hi. subst T. rewrite Z2Nat.id; lia. }
  exists a. erewrite (embed_fault _ (iter_res T (sbody4 ar f) _)); [reflexivity| |exact Ha].
  apply (iter_res_embed (sbody4 ar f) _ _ (sbody4_embed ar d f) T (m, out, a1, a2, a3, a4)).
Qed.
End Scalar.

(** * SIMD loops *)
Section Vector.
Context {A : Type} (ar : arith A) (B : backend).
Local Notation vec := (list A).
Local Notation step := (Z.of_nat (vsize B)).
Local Notation wrap := (wrap_vector_arg ar B).

(** Proof auxiliary: a wrapper whose registers have the right width. *)
Definition varg_wf (a : varg A) : Prop :=
  match a with VRamp d s => length d = vsize B /\ length s = vsize B | _ => True end.

Lemma wrap_wf a : varg_wf (wrap a).
Proof.
  destruct a as [p|x|b s]; cbn [wrap_vector_arg]; try exact I.
  pose proof (set_slope_length ar B b s). destruct (set_slope ar B b s).
  split; [assumption|apply repeat_length].
Qed.

Lemma vload_aligned_cases (m : mem A) a :
  (exists v, vload_aligned B m a = Ok v /\ length v = vsize B) \/
  (exists e, vload_aligned B m a = Fault e /\ memfault e).
Proof.
  unfold vload_aligned. destruct (vaddr _ B a) as [a'|e] eqn:E; cbn [bind].
  - destruct (load_n (vsize B) m a') as [v|e] eqn:EL.
    + left. exists v. split; [reflexivity|]. apply (load_n_ok_inv _ _ _ _ EL).
    + right. exists e. split; [reflexivity|]. destruct (load_n_fault_kind _ _ _ _ EL) as [b ->]. exact I.
  - right. exists e. split; [reflexivity|]. rewrite (vaddr_fault _ _ _ _ E). exact I.
Qed.

Lemma consume_cases (m : mem A) a : varg_wf a ->
  (exists v a', varg_consume ar B m a = Ok (v, a') /\ length v = vsize B /\ varg_wf a') \/
  (exists e, varg_consume ar B m a = Fault e /\ memfault e).
Proof.
  intros Ha. destruct a as [p|x|d s]; cbn [varg_consume].
  - destruct (vload_aligned_cases m p) as [(v & -> & L)|(e & -> & F)]; cbn [bind]; [left|right]; eauto.
  - left. do 2 eexists. split; [reflexivity|]. split; [apply repeat_length|exact I].
  - left. do 2 eexists. split; [reflexivity|]. destruct Ha as [Hd Hs]. split; [assumption|].
    split; [|assumption]. unfold vadd. rewrite map2_length; congruence.
Qed.

(** Functors of any arity returning full vectors. *)
Definition vfunk (k : nat) (fv : list vec -> vec) : Prop :=
  forall us, length us = k -> Forall (fun u => length u = vsize B) us -> length (fv us) = vsize B.

(** Proof auxiliary: a loaded register of the right width. *)
Definition loaded (v : option vec) : Prop := match v with Some u => length u = vsize B | None => False end.

Lemma preload_cases more (m : mem A) args : Forall varg_wf args ->
  (exists nx, mapM (preload ar B more m) args = Ok nx /\ length nx = length args /\
     Forall (fun p => varg_wf (snd p)) nx /\ (more = true -> Forall (fun p => loaded (fst p)) nx)) \/
  (exists e, mapM (preload ar B more m) args = Fault e /\ memfault e).
Proof.
  intros H. destruct (mapM_cases (preload ar B more m) args) as [(ys & E & F)|(x & e & Hin & Ex & E)].
  - left. exists ys. split; [exact E|]. split; [symmetry; eapply Forall2_length; exact F|].
    clear E. induction F as [|x y l l' Hxy F IH]; [split; auto|].
    inversion H; subst. destruct (IH H3) as [W L].
    assert (G : varg_wf (snd y) /\ (more = true -> loaded (fst y))).
    { unfold preload in Hxy. destruct more.
      - destruct (consume_cases m x H2) as [(v & a' & Ec & Lv & Wa)|(e & Ec & _)];
          rewrite Ec in Hxy; cbn in Hxy; inversion Hxy; subst; cbn; auto.
      - inversion Hxy; subst; cbn. split; [assumption|discriminate]. }
    destruct G. split; [constructor; assumption|]. intro M. constructor; auto.
  - right. exists e. split; [exact E|]. rewrite Forall_forall in H. specialize (H x Hin).
    unfold preload in Ex. destruct more; [|discriminate].
    destruct (consume_cases m x H) as [(v & a' & Ec & _)|(e' & Ec & Fe)];
      rewrite Ec in Ex; cbn in Ex; inversion Ex; subst; auto.
Qed.

Lemma use_loaded ls : Forall loaded ls ->
  exists us, mapM use ls = Ok us /\ length us = length ls /\ Forall (fun u => length u = vsize B) us.
Proof.
  induction 1 as [|v l Hv H IH]; cbn [mapM]; [exists []; auto|].
  destruct v as [u|]; [|contradiction]. cbn [use bind].
  destruct IH as (us & -> & L & F). cbn [bind]. exists (u :: us). cbn; auto.
Qed.

(** Either the unrolled code writes all its outputs, or it ends in a memory fault. *)
Definition outcome (m : mem A) (out n : Z) (na : nat) (r : res (mem A * list (varg A))) : Prop :=
  match r with
  | Ok (m', args') => same_dom m m' /\ length args' = na /\ Forall varg_wf args' /\
                      forall i, 0 <= i < n -> m (out + i) <> None
  | Fault e => memfault e
  end.

Lemma mpk_outcome fv na : vfunk na fv ->
  forall k m out ls args, aligned B out -> length args = na -> length ls = na ->
    Forall varg_wf args -> (k <> O -> Forall loaded ls) ->
    outcome m out (Z.of_nat k * step) na (mpk ar B k m out ls args fv).
Proof.
  intros Hf. induction k as [|k IH]; intros m out ls args Hal La Ll Hw Hl; cbn [mpk].
  - cbn. repeat split; auto; try apply same_dom_refl. intros; lia.
  - destruct (preload_cases (negb (Nat.eqb k 0)) m args Hw) as [(nx & -> & Ln & Wn & Lo)|(e & -> & F)];
      cbn [bind]; [|exact F].
    destruct (use_loaded ls (Hl ltac:(lia))) as (us & -> & Lu & Fu). cbn [bind].
    unfold vstore_aligned. rewrite vaddr_aligned by assumption. cbn [bind].
    destruct (store_list m out (fv us)) as [m1|e] eqn:ES; cbn [bind].
    + destruct (store_list_same_dom _ _ _ _ ES) as [D V]. rewrite Hf in V by congruence.
      specialize (IH m1 (out + step) (map fst nx) (map snd nx)).
      assert (Hal' : aligned B (out + step)) by (replace step with (1 * step) by lia; apply aligned_step; assumption).
      rewrite !map_length in IH. specialize (IH Hal' ltac:(congruence) ltac:(congruence)).
      rewrite !Forall_map in IH. specialize (IH Wn).
      unfold outcome in *.
      destruct (mpk ar B k m1 (out + step) (map fst nx) (map snd nx) fv) as [[m2 args2]|e2].
      * destruct IH as (D2 & L2 & W2 & V2).
        { intro Nk. apply Lo. destruct (Nat.eqb_spec k 0); [lia|reflexivity]. }
        split; [eapply same_dom_trans; eassumption|]. split; [assumption|]. split; [assumption|].
        intros i Hi. destruct (Z_lt_dec i step) as [Lt|Ge].
        -- replace i with (Z.of_nat (Z.to_nat i)) by lia. apply V. lia.
        -- intro C. apply D in C. apply (V2 (i - step)); [lia|]. rewrite <- C. f_equal. lia.
      * apply IH. intro Nk. apply Lo. destruct (Nat.eqb_spec k 0); [lia|reflexivity].
    + destruct (store_list_fault_kind _ _ _ _ ES) as [b ->]. exact I.
Qed.

Lemma runk_outcome fv na k (m : mem A) out args : vfunk na fv ->
  aligned B out -> length args = na -> Forall varg_wf args ->
  outcome m out (Z.of_nat k * step) na (runk ar B k m out args fv).
Proof.
  intros Hf Hal La Hw. unfold runk.
  destruct (mapM_cases (varg_consume ar B m) args) as [(ys & -> & F)|(x & e & Hin & Ex & ->)]; cbn [bind].
  - assert (G : length ys = na /\ Forall (fun p => varg_wf (snd p)) ys /\
                Forall (fun p => loaded (Some (fst p))) ys).
    { split; [rewrite <- La; symmetry; eapply Forall2_length; exact F|]. clear La.
      induction F as [|x y l l' Hxy F IH]; [auto|]. inversion Hw; subst. destruct (IH H2) as [W L].
      destruct (consume_cases m x H1) as [(v & a' & Ec & Lv & Wa)|(e & Ec & _)];
        rewrite Ec in Hxy; inversion Hxy; subst. split; constructor; auto. }
    destruct G as (L & W & Lo). apply mpk_outcome; auto.
    + rewrite map_length. assumption.
    + rewrite map_length. assumption.
    + rewrite Forall_map. assumption.
    + intros _. rewrite Forall_map. assumption.
  - rewrite Forall_forall in Hw. specialize (Hw x Hin).
    destruct (consume_cases m x Hw) as [(v & a' & Ec & _)|(e' & Ec & Fe)]; rewrite Ec in Ex; inversion Ex; subst.
    exact Fe.
Qed.

Lemma loopk_outcome fv na : vfunk na fv ->
  forall T m out args, aligned B out -> length args = na -> Forall varg_wf args ->
  match iter_res T (loopk_body ar B fv) (m, out, args) with
  | Ok _ => forall i, 0 <= i < Z.of_nat T * loop_unit B -> m (out + i) <> None
  | Fault e => memfault e
  end.
Proof.
  intros Hf. destruct (vecs_per_loop_spec B) as [HV _].
  induction T as [|T IH]; intros m out args Hal La Hw; cbn [iter_res].
  - intros i Hi. lia.
  - cbn [loopk_body]. pose proof (runk_outcome fv na (vecs_per_loop B) m out args Hf Hal La Hw) as R.
    destruct (runk ar B (vecs_per_loop B) m out args fv) as [[m1 args1]|e]; cbn [bind outcome] in *; [|exact R].
    destruct R as (D & L & W & V). rewrite HV in V.
    assert (Hal' : aligned B (out + samples_per_loop B)).
    { rewrite loop_unit_spec, <- HV. apply aligned_step. assumption. }
    specialize (IH m1 (out + samples_per_loop B) args1 Hal' L W).
    destruct (iter_res T _ _); [|exact IH].
    intros i Hi. destruct (Z_lt_dec i (loop_unit B)) as [Lt|Ge]; [apply V; lia|].
    intro C. apply D in C. apply (IH (i - loop_unit B)); [lia|]. rewrite <- C. f_equal.
    rewrite loop_unit_spec. lia.
Qed.

Lemma loopk_short fv na T (m : mem A) out args i : vfunk na fv ->
  aligned B out -> length args = na -> Forall varg_wf args ->
  0 <= i < Z.of_nat T * loop_unit B -> m (out + i) = None ->
  exists e, iter_res T (loopk_body ar B fv) (m, out, args) = Fault e /\ memfault e.
Proof.
  intros Hf Hal La Hw Hi Hm. pose proof (loopk_outcome fv na Hf T m out args Hal La Hw) as R.
  destruct (iter_res T (loopk_body ar B fv) (m, out, args)) as [s|e]; [|eauto].
  exfalso. eapply R; eauto.
Qed.

Lemma vfun1_k vf : vfun1 B vf -> vfunk 1 (fk1 [] vf).
Proof.
  intros H us L F. destruct us as [|u [|]]; try discriminate.
  repeat match goal with H : Forall _ (_ :: _) |- _ => inversion H; subst; clear H end. cbn. apply H; assumption.
Qed.
Lemma vfun2_k vf : vfun2 B vf -> vfunk 2 (fk2 [] vf).
Proof.
  intros H us L F. destruct us as [|u [|v [|]]]; try discriminate.
  repeat match goal with H : Forall _ (_ :: _) |- _ => inversion H; subst; clear H end. cbn. apply H; assumption.
Qed.
Lemma vfun3_k vf : vfun3 B vf -> vfunk 3 (fk3 [] vf).
Proof.
  intros H us L F. destruct us as [|u [|v [|w [|]]]]; try discriminate.
  repeat match goal with H : Forall _ (_ :: _) |- _ => inversion H; subst; clear H end. cbn. apply H; assumption.
Qed.
Lemma vfun4_k vf : vfun4 B vf -> vfunk 4 (fk4 [] vf).
Proof.
  intros H us L F. destruct us as [|u [|v [|w [|x [|]]]]]; try discriminate.
  repeat match goal with H : Forall _ (_ :: _) |- _ => inversion H; subst; clear H end. cbn. apply H; assumption.
Qed.

Lemma short_count n : 0 <= n < loop_unit B -> n / samples_per_loop B = 0.
Proof. intros. rewrite loop_unit_spec. apply Z.div_small. lia. Qed.

Lemma to_nat_two32 : Z.of_nat (Z.to_nat two32) = 2 ^ 32.
Proof. rewrite <- two32_eq. apply Z2Nat.id. intro H. discriminate. Qed.

Lemma unary_simd_short vf (m : mem A) out inp n i :
  vfun1 B vf -> aligned B out -> 0 <= n < loop_unit B ->
  0 <= i < 2 ^ 32 * loop_unit B -> m (out + i) = None ->
  memory_fault (unary_vec_simd ar B vf m out inp n).
Proof.
  intros Hf Hal Hn Hi Hm. unfold unary_vec_simd, generate_simd_loop1.
  rewrite short_count, do_while_zero by assumption.
  remember (Z.to_nat two32) as T eqn:HT. pose proof to_nat_two32 as H32. rewrite <- HT in H32.
  destruct (loopk_short (fk1 [] vf) 1 T m out [wrap (APtr inp)] i) as (e & E & F);
    auto using vfun1_k, wrap_wf; [rewrite H32; assumption|].
  change (memory_fault (bind (iter_res T (lbody1 ar B vf) (m, out, wrap (APtr inp)))
            (fun x => let '(m', _, _) := x in Ok m'))).
  erewrite (embed_fault _ (iter_res T (lbody1 ar B vf) _)); [|
    apply (iter_res_embed _ _ e1 (lbody1_embed ar B vf) T (m, out, wrap (APtr inp)))|exact E].
  apply memfault_spec. exact F.
Qed.

Lemma binary_simd_short vf (m : mem A) out a1 a2 n i :
  vfun2 B vf -> aligned B out -> 0 <= n < loop_unit B ->
  0 <= i < 2 ^ 32 * loop_unit B -> m (out + i) = None ->
  memory_fault (binary_vec_simd ar B vf m out a1 a2 n).
Proof.
  intros Hf Hal Hn Hi Hm. unfold binary_vec_simd, generate_simd_loop2.
  rewrite short_count, do_while_zero by assumption.
  remember (Z.to_nat two32) as T eqn:HT. pose proof to_nat_two32 as H32. rewrite <- HT in H32.
  destruct (loopk_short (fk2 [] vf) 2 T m out [wrap a1; wrap a2] i) as (e & E & F);
    auto using vfun2_k, wrap_wf; [rewrite H32; assumption|].
  change (memory_fault (bind (iter_res T (lbody2 ar B vf) (m, out, wrap a1, wrap a2))
            (fun x => let '(m', _, _, _) := x in Ok m'))).
  erewrite (embed_fault _ (iter_res T (lbody2 ar B vf) _)); [|
    apply (iter_res_embed _ _ e2 (lbody2_embed ar B vf) T (m, out, wrap a1, wrap a2))|exact E].
  apply memfault_spec. exact F.
Qed.

Lemma ternary_simd_short vf (m : mem A) out a1 a2 a3 n i :
  vfun3 B vf -> aligned B out -> 0 <= n < loop_unit B ->
  0 <= i < 2 ^ 32 * loop_unit B -> m (out + i) = None ->
  memory_fault (ternary_vec_simd ar B vf m out a1 a2 a3 n).
Proof.
  intros Hf Hal Hn Hi Hm. unfold ternary_vec_simd, generate_simd_loop3.
  rewrite short_count, do_while_zero by assumption.
  remember (Z.to_nat two32) as T eqn:HT. pose proof to_nat_two32 as H32. rewrite <- HT in H32.
  destruct (loopk_short (fk3 [] vf) 3 T m out [wrap a1; wrap a2; wrap a3] i) as (e & E & F);
    auto using vfun3_k, wrap_wf; [rewrite H32; assumption|].
  change (memory_fault (bind (iter_res T (lbody3 ar B vf) (m, out, wrap a1, wrap a2, wrap a3))
            (fun x => let '(m', _, _, _, _) := x in Ok m'))).
  erewrite (embed_fault _ (iter_res T (lbody3 ar B vf) _)); [|
    apply (iter_res_embed _ _ e3 (lbody3_embed ar B vf) T (m, out, wrap a1, wrap a2, wrap a3))|exact E].
  apply memfault_spec. exact F.
Qed.

Lemma quaternary_simd_short vf (m : mem A) out a1 a2 a3 a4 n i :
  vfun4 B vf -> aligned B out -> 0 <= n < loop_unit B ->
  0 <= i < 2 ^ 32 * loop_unit B -> m (out + i) = None ->
  memory_fault (quaternary_vec_simd ar B vf m out a1 a2 a3 a4 n).
Proof.
  intros Hf Hal Hn Hi Hm. unfold quaternary_vec_simd, generate_simd_loop4.
  rewrite short_count, do_while_zero by assumption.
  remember (Z.to_nat two32) as T eqn:HT. pose proof to_nat_two32 as H32. rewrite <- HT in H32.
  destruct (loopk_short (fk4 [] vf) 4 T m out [wrap a1; wrap a2; wrap a3; wrap a4] i) as (e & E & F);
    auto 10 using vfun4_k, wrap_wf; [rewrite H32; assumption|].
  change (memory_fault (bind (iter_res T (lbody4 ar B vf) (m, out, wrap a1, wrap a2, wrap a3, wrap a4))
            (fun x => let '(m', _, _, _, _, _) := x in Ok m'))).
  erewrite (embed_fault _ (iter_res T (lbody4 ar B vf) _)); [|
    apply (iter_res_embed _ _ e4 (lbody4_embed ar B vf) T (m, out, wrap a1, wrap a2, wrap a3, wrap a4))|exact E].
  apply memfault_spec. exact F.
Qed.

(** * Misaligned pointers on trapping back-ends *)
Lemma vaddr_misaligned p : traps B -> ~ aligned B p -> vaddr (aligned_rule B) B p = Fault (Misaligned p).
Proof.
  intros HT Hn. unfold aligned in Hn.
  destruct B; try contradiction; cbn [aligned_rule vaddr vsize align_req] in *;
    match goal with |- (if ?a mod ?b =? 0 then _ else _) = _ =>
      destruct (Z.eqb_spec (a mod b) 0) as [E|E]; [|reflexivity];
      exfalso; apply Hn; apply Z.mod_divide; [lia|exact E] end.
Qed.

(** Proof auxiliary: the pointer of a wrapper is aligned. *)
Definition varg_aligned (a : varg A) : Prop :=
  match a with VPtr p => aligned B p | _ => True end.
(** Proof auxiliary: [n] cells at the pointer of a wrapper exist. *)
Definition varg_accessible (m : mem A) (n : Z) (a : varg A) : Prop :=
  match a with VPtr p => accessible m p n | _ => True end.

Lemma aligned_dec p : {aligned B p} + {~ aligned B p}.
Proof. unfold aligned. apply Znumtheory.Zdivide_dec. Qed.

Lemma consume_misaligned m a :
  traps B -> varg_wf a -> varg_accessible m step a ->
  (varg_aligned a /\ exists v a', varg_consume ar B m a = Ok (v, a') /\ varg_wf a' /\
      length v = vsize B /\
      forall n, varg_accessible m (n + step) a -> varg_accessible m n a' /\ varg_aligned a') \/
  (~ varg_aligned a /\ exists b, varg_consume ar B m a = Fault (Misaligned b)).
Proof.
  intros HT Hw Ha. destruct a as [p|x|d s]; cbn [varg_consume varg_aligned varg_accessible] in *.
  - destruct (aligned_dec p) as [Hal|Hal].
    + left. split; [exact Hal|]. unfold vload_aligned. rewrite vaddr_aligned by assumption. cbn [bind].
      destruct (load_n (vsize B) m p) as [v|e] eqn:EL.
      * cbn [bind]. do 2 eexists. split; [reflexivity|]. split; [exact I|].
        split; [apply (load_n_ok_inv _ _ _ _ EL)|].
        intros n Hn. cbn. split.
        -- intros i Hi. destruct (Hn (i + step)) as [y Hy]; [lia|]. exists y. rewrite <- Hy. f_equal. lia.
        -- replace step with (1 * step) by lia. apply aligned_step. assumption.
      * exfalso.
        assert (G : exists l, load_n (vsize B) m p = Ok l).
        { clear EL. assert (Hk : forall k q, (forall j, (j < k)%nat -> exists y, m (q + Z.of_nat j) = Some y) ->
                     exists l, load_n k m q = Ok l).
          { induction k as [|k IH]; intros q Hq; cbn [load_n]; [eauto|].
            destruct (Hq O ltac:(lia)) as [y Hy]. rewrite Z.add_0_r in Hy. unfold load. rewrite Hy. cbn [bind].
            destruct (IH (q + 1)) as [l ->]; [|cbn; eauto].
            intros j Hj. destruct (Hq (S j) ltac:(lia)) as [z Hz]. exists z. rewrite <- Hz. f_equal. lia. }
          apply Hk. intros j Hj. apply Ha. lia. }
        destruct G as [l G]. congruence.
    + right. split; [exact Hal|]. unfold vload_aligned. rewrite vaddr_misaligned by assumption. cbn. eauto.
  - left. split; [exact I|]. do 2 eexists. split; [reflexivity|]. split; [exact I|].
    split; [apply repeat_length|]. intros; cbn; auto.
  - left. split; [exact I|]. do 2 eexists. split; [reflexivity|]. destruct Hw as [Hd Hs].
    split; [|split; [assumption|intros; cbn; auto]].
    split; [unfold vadd; rewrite map2_length; congruence|assumption].
Qed.

Lemma mapM_consume_misaligned m n args :
  traps B -> step <= n ->
  Forall varg_wf args -> Forall (varg_accessible m n) args ->
  (Forall varg_aligned args /\ exists nx, mapM (varg_consume ar B m) args = Ok nx /\
      length nx = length args /\
      Forall (fun p => varg_wf (snd p) /\ length (fst p) = vsize B /\ varg_aligned (snd p) /\
                       varg_accessible m (n - step) (snd p)) nx) \/
  (~ Forall varg_aligned args /\ exists b, mapM (varg_consume ar B m) args = Fault (Misaligned b)).
Proof.
  intros HT Hn. induction args as [|a r IH]; intros Hw Ha; cbn [mapM].
  - left. split; [constructor|]. exists []. auto.
  - inversion Hw; subst. inversion Ha; subst.
    assert (Hs : varg_accessible m step a).
    { destruct a; cbn in *; auto. intros i Hi. apply H3. lia. }
    destruct (consume_misaligned m a HT H1 Hs) as [(Al & v & a' & -> & W & L & N)|(Al & b & ->)]; cbn [bind].
    + destruct (IH H2 H4) as [(Alr & nx & -> & Ln & Fn)|(Alr & b & ->)]; cbn [bind].
      * left. split; [constructor; assumption|]. exists ((v, a') :: nx). split; [reflexivity|].
        split; [cbn; congruence|]. constructor; [|assumption]. cbn.
        destruct (N (n - step)) as [N1 N2]; [replace (n - step + step) with n by lia; assumption|]. auto.
      * right. split; [intro C; inversion C; contradiction|]. eauto.
    + right. split; [intro C; inversion C; contradiction|]. eauto.
Qed.

Lemma runk_misaligned fv na k (m : mem A) out args :
  traps B -> vfunk na fv -> length args = na -> (2 <= k)%nat ->
  Forall varg_wf args -> Forall (varg_accessible m (2 * step)) args ->
  ~ (aligned B out /\ Forall varg_aligned args) ->
  exists b, runk ar B k m out args fv = Fault (Misaligned b).
Proof.
  intros HT Hf La Hk Hw Ha Hn. unfold runk.
  destruct (mapM_consume_misaligned m (2 * step) args HT ltac:(lia) Hw Ha)
    as [(Al & nx & -> & Ln & Fn)|(_ & b & ->)]; cbn [bind]; [|eauto].
  destruct k as [|[|k]]; [lia|lia|]. cbn [mpk Nat.eqb negb].
  assert (Hw' : Forall varg_wf (map snd nx)).
  { rewrite Forall_map. eapply Forall_impl; [|exact Fn]. cbn. tauto. }
  assert (Ha' : Forall (varg_accessible m step) (map snd nx)).
  { rewrite Forall_map. eapply Forall_impl; [|exact Fn]. cbv beta. intros p (_ & _ & _ & Hp).
    replace (2 * step - step) with step in Hp by lia. exact Hp. }
  assert (Hal' : Forall varg_aligned (map snd nx)).
  { rewrite Forall_map. eapply Forall_impl; [|exact Fn]. cbn. tauto. }
  destruct (mapM_consume_misaligned m step (map snd nx) HT ltac:(lia) Hw' Ha')
    as [(_ & nx2 & E2 & _)|(C & _)]; [|contradiction].
  assert (EP : exists nx3, mapM (preload ar B true m) (map snd nx) = Ok nx3).
  { clear - E2. revert nx2 E2. induction (map snd nx) as [|a r IH]; intros nx2 E2; cbn [mapM] in *; [eauto|].
    unfold preload at 1. destruct (varg_consume ar B m a) as [[v a']|]; cbn [bind] in *; [|discriminate].
    destruct (mapM (varg_consume ar B m) r) as [ys|]; cbn [bind] in *; [|discriminate].
    destruct (IH ys eq_refl) as [nx3 ->]. cbn. eauto. }
  destruct EP as [nx3 ->]. cbn [bind].
  destruct (use_loaded (map (fun p => Some (fst p)) nx)) as (us & -> & _).
  { rewrite Forall_map. eapply Forall_impl; [|exact Fn]. cbn. tauto. }
  cbn [bind]. unfold vstore_aligned. rewrite vaddr_misaligned; [cbn; eauto|assumption|].
  intro C. apply Hn. split; assumption.
Qed.

Lemma vecs_ge_2 : (2 <= vecs_per_loop B)%nat.
Proof. destruct B; cbn; unfold vecs_per_loop; cbn; lia. Qed.

Lemma wrap_accessible m a n k : k <= n -> arg_accessible m a n -> varg_accessible m k (wrap a).
Proof.
  intros Hk Ha. destruct a as [p|x|b s]; cbn [wrap_vector_arg].
  - intros i Hi. apply Ha. lia.
  - exact I.
  - destruct (set_slope ar B b s). exact I.
Qed.

Lemma wrap_aligned a : varg_aligned (wrap a) <-> arg_aligned B a.
Proof.
  destruct a as [p|x|b s]; cbn [wrap_vector_arg]; try reflexivity.
  destruct (set_slope ar B b s). reflexivity.
Qed.

Lemma loopk_misaligned fv na T (m : mem A) out args :
  traps B -> vfunk na fv -> length args = na -> (0 < T)%nat ->
  Forall (fun a => arg_accessible m a (loop_unit B)) args ->
  ~ (aligned B out /\ Forall (arg_aligned B) args) ->
  exists b, iter_res T (loopk_body ar B fv) (m, out, map wrap args) = Fault (Misaligned b).
Proof.
  intros HT Hf La Hpos Ha Hn. destruct T as [|T]; [lia|]. cbn [iter_res loopk_body].
  destruct (runk_misaligned fv na (vecs_per_loop B) m out (map wrap args)) as [b ->]; auto.
  - rewrite map_length. assumption.
  - apply vecs_ge_2.
  - rewrite Forall_map. apply Forall_forall. intros; apply wrap_wf.
  - rewrite Forall_map. eapply Forall_impl; [|exact Ha]. intros a Hacc.
    eapply wrap_accessible; [|exact Hacc].
    destruct (vecs_per_loop_spec B) as [E _]. pose proof vecs_ge_2. nia.
  - intros [C1 C2]. apply Hn. split; [assumption|]. rewrite Forall_map in C2.
    eapply Forall_impl; [|exact C2]. intros a. apply wrap_aligned.
  - cbn. eauto.
Qed.

Lemma unary_simd_misaligned vf (m : mem A) out inp n :
  traps B -> vfun1 B vf -> loop_unit B <= n < two32 ->
  accessible m inp (loop_unit B) ->
  ~ (aligned B out /\ aligned B inp) ->
  exists b, unary_vec_simd ar B vf m out inp n = Fault (Misaligned b).
Proof.
  intros HT Hf Hn Ha Hal. unfold unary_vec_simd, generate_simd_loop1.
  pose proof (count_ok B n Hn). rewrite do_while_iter by assumption.
  set (T := Z.to_nat (n / samples_per_loop B)).
  destruct (loopk_misaligned (fk1 [] vf) 1 T m out [APtr inp]) as [b E]; auto using vfun1_k; [lia| |].
  { intros [C1 C2]. inversion C2; subst. apply Hal. auto. }
  exists b. match goal with |- bind ?X _ = _ => change X with (iter_res T (lbody1 ar B vf) (m, out, wrap (APtr inp))) end.
  erewrite (embed_fault _ (iter_res T (lbody1 ar B vf) _)); [reflexivity|
    apply (iter_res_embed _ _ e1 (lbody1_embed ar B vf) T (m, out, wrap (APtr inp)))|exact E].
Qed.

Lemma binary_simd_misaligned vf (m : mem A) out a1 a2 n :
  traps B -> vfun2 B vf -> loop_unit B <= n < two32 ->
  arg_accessible m a1 (loop_unit B) -> arg_accessible m a2 (loop_unit B) ->
  ~ (aligned B out /\ arg_aligned B a1 /\ arg_aligned B a2) ->
  exists b, binary_vec_simd ar B vf m out a1 a2 n = Fault (Misaligned b).
Proof.
  intros HT Hf Hn Ha Hb Hal. unfold binary_vec_simd, generate_simd_loop2.
  pose proof (count_ok B n Hn). rewrite do_while_iter by assumption.
  set (T := Z.to_nat (n / samples_per_loop B)).
  destruct (loopk_misaligned (fk2 [] vf) 2 T m out [a1; a2]) as [b E]; auto using vfun2_k; [lia| |].
  { intros [C1 C2]. repeat match goal with H : Forall _ (_ :: _) |- _ => inversion H; subst; clear H end. apply Hal. auto. }
  exists b. match goal with |- bind ?X _ = _ => change X with (iter_res T (lbody2 ar B vf) (m, out, wrap a1, wrap a2)) end.
  erewrite (embed_fault _ (iter_res T (lbody2 ar B vf) _)); [reflexivity|
    apply (iter_res_embed _ _ e2 (lbody2_embed ar B vf) T (m, out, wrap a1, wrap a2))|exact E].
Qed.

Lemma ternary_simd_misaligned vf (m : mem A) out a1 a2 a3 n :
  traps B -> vfun3 B vf -> loop_unit B <= n < two32 ->
  arg_accessible m a1 (loop_unit B) -> arg_accessible m a2 (loop_unit B) ->
  arg_accessible m a3 (loop_unit B) ->
  ~ (aligned B out /\ arg_aligned B a1 /\ arg_aligned B a2 /\ arg_aligned B a3) ->
  exists b, ternary_vec_simd ar B vf m out a1 a2 a3 n = Fault (Misaligned b).
Proof.
  intros HT Hf Hn Ha Hb Hc Hal. unfold ternary_vec_simd, generate_simd_loop3.
  pose proof (count_ok B n Hn). rewrite do_while_iter by assumption.
  set (T := Z.to_nat (n / samples_per_loop B)).
  destruct (loopk_misaligned (fk3 [] vf) 3 T m out [a1; a2; a3]) as [b E]; auto using vfun3_k; [lia| |].
  { intros [C1 C2]. repeat match goal with H : Forall _ (_ :: _) |- _ => inversion H; subst; clear H end. apply Hal. auto. }
  exists b. match goal with |- bind ?X _ = _ => change X with (iter_res T (lbody3 ar B vf) (m, out, wrap a1, wrap a2, wrap a3)) end.
  erewrite (embed_fault _ (iter_res T (lbody3 ar B vf) _)); [reflexivity|
    apply (iter_res_embed _ _ e3 (lbody3_embed ar B vf) T (m, out, wrap a1, wrap a2, wrap a3))|exact E].
Qed.

Lemma quaternary_simd_misaligned vf (m : mem A) out a1 a2 a3 a4 n :
  traps B -> vfun4 B vf -> loop_unit B <= n < two32 ->
  arg_accessible m a1 (loop_unit B) -> arg_accessible m a2 (loop_unit B) ->
  arg_accessible m a3 (loop_unit B) -> arg_accessible m a4 (loop_unit B) ->
  ~ (aligned B out /\ arg_aligned B a1 /\ arg_aligned B a2 /\ arg_aligned B a3 /\ arg_aligned B a4) ->
  exists b, quaternary_vec_simd ar B vf m out a1 a2 a3 a4 n = Fault (Misaligned b).
Proof.
  intros HT Hf Hn Ha Hb Hc Hd Hal. unfold quaternary_vec_simd, generate_simd_loop4.
  pose proof (count_ok B n Hn). rewrite do_while_iter by assumption.
  set (T := Z.to_nat (n / samples_per_loop B)).
  destruct (loopk_misaligned (fk4 [] vf) 4 T m out [a1; a2; a3; a4]) as [b E]; auto 10 using vfun4_k; [lia| |].
  { intros [C1 C2]. repeat match goal with H : Forall _ (_ :: _) |- _ => inversion H; subst; clear H end. apply Hal. auto 10. }
  exists b. match goal with |- bind ?X _ = _ => change X with (iter_res T (lbody4 ar B vf) (m, out, wrap a1, wrap a2, wrap a3, wrap a4)) end.
  erewrite (embed_fault _ (iter_res T (lbody4 ar B vf) _)); [reflexivity|
    apply (iter_res_embed _ _ e4 (lbody4_embed ar B vf) T (m, out, wrap a1, wrap a2, wrap a3, wrap a4))|exact E].
Qed.
End Vector.

(** is_aligned on the byte address of element [a]. *)
Lemma is_aligned_traps B a : traps B -> (is_aligned B (a * elem_bytes B) = true <-> aligned B a).
Proof.
  intros HT. unfold aligned. destruct B; try contradiction; cbn [is_aligned elem_bytes vsize align_req];
    rewrite Z.eqb_eq.
  - change (Z.of_nat 4 * 4 - 1) with (Z.ones 4). rewrite Z.land_ones by lia. change (2 ^ 4) with 16.
    rewrite Z.mod_divide by lia. change 16 with (4 * 4). rewrite Z.mul_divide_cancel_r by lia. reflexivity.
  - change (Z.of_nat 2 * 8 - 1) with (Z.ones 4). rewrite Z.land_ones by lia. change (2 ^ 4) with 16.
    rewrite Z.mod_divide by lia. change 16 with (2 * 8). rewrite Z.mul_divide_cancel_r by lia. reflexivity.
  - change (Z.of_nat 8 * 4 - 1) with (Z.ones 5). rewrite Z.land_ones by lia. change (2 ^ 5) with 32.
    rewrite Z.mod_divide by lia. change 32 with (8 * 4). rewrite Z.mul_divide_cancel_r by lia. reflexivity.
  - change (Z.of_nat 4 * 8 - 1) with (Z.ones 5). rewrite Z.land_ones by lia. change (2 ^ 5) with 32.
    rewrite Z.mod_divide by lia. change 32 with (4 * 8). rewrite Z.mul_divide_cancel_r by lia. reflexivity.
Qed.
