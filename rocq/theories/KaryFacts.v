(** One driver for all arities, and its correctness.  Proof device only. *)
From Coq Require Import ZArith List Lia Bool.
From Verif Require Import Base Mem Loop Backend Args Drivers Spec LoopFacts MemFacts.
Import ListNotations.
Local Open Scope Z_scope.

(** Proof auxiliary: a list of fallible computations. *)
Fixpoint mapM {A B} (f : A -> res B) (l : list A) : res (list B) :=
  match l with
  | [] => Ok []
  | x :: r => y <- f x ;; ys <- mapM f r ;; Ok (y :: ys)
  end.

Lemma mapM_ok {A B} (f : A -> res B) (g : A -> B) l :
  (forall x, In x l -> f x = Ok (g x)) -> mapM f l = Ok (map g l).
Proof.
  induction l as [|x r IH]; intros H; cbn [mapM map]; [reflexivity|].
  rewrite H by (left; reflexivity). cbn [bind].
  rewrite IH by (intros; apply H; right; assumption). reflexivity.
Qed.

Lemma mapM_map {A B C} (f : B -> res C) (g : A -> B) l :
  mapM f (map g l) = mapM (fun x => f (g x)) l.
Proof. induction l as [|x r IH]; cbn [mapM map]; [reflexivity|]. rewrite IH. reflexivity. Qed.

Lemma iterS {X} (f : X -> X) n x : Nat.iter (S n) f x = f (Nat.iter n f x).
Proof. reflexivity. Qed.

(** * Scalar *)
Section ScalarK.
Context {A : Type} (ar : arith A).

(** Proof auxiliary: one step of the scalar loop with a list of arguments. *)
Definition sbodyk (f : list A -> A) (s : mem A * Z * list (arg A)) : res (mem A * Z * list (arg A)) :=
  let '(m, out, args) := s in
  xs <- mapM (arg_get m) args ;;
  m' <- store m out (f xs) ;;
  Ok (m', out + 1, map (arg_incr ar) args).

(** Proof auxiliary: an argument after [k] steps. *)
Definition sadv (k : nat) (a : arg A) : arg A :=
  match a with
  | APtr p => APtr (p + Z.of_nat k)
  | AScal x => AScal x
  | ARamp d s => ARamp (Nat.iter k (fun y => a_add ar y s) d) s
  end.

Lemma sadv_0 a : sadv 0 a = a.
Proof. destruct a; cbn; try reflexivity. f_equal; lia. Qed.

Lemma sadv_S k a : arg_incr ar (sadv k a) = sadv (S k) a.
Proof. destruct a; cbn; try reflexivity. f_equal; lia. Qed.

(** Proof auxiliary: the value an argument yields at step [i]. *)
Definition sval (d : A) (m : mem A) (a : arg A) (i : Z) : A :=
  match sample ar m a i with Some x => x | None => d end.

Lemma sget_spec d (m m1 : mem A) out n (v : Z -> A) K a :
  (Z.of_nat K < n) ->
  meq m1 (wr m out (Z.of_nat K) v) ->
  arg_accessible m a n -> overlap_ok out a n ->
  arg_get m1 (sadv K a) = Ok (sval d m a (Z.of_nat K)).
Proof.
  intros HK Hm Ha Ho. destruct a as [p|x|b s]; cbn in *.
  - unfold load, sval; cbn [sample]. rewrite Hm, wr_out by lia.
    destruct (Ha (Z.of_nat K)) as [x Hx]; [lia|]. rewrite Hx. reflexivity.
  - reflexivity.
  - unfold sval; cbn [sample]. rewrite Nat2Z.id. reflexivity.
Qed.

Lemma iter_sbodyk (f : list A -> A) d (m : mem A) out args n :
  accessible m out (Z.of_nat n) ->
  Forall (fun a => arg_accessible m a (Z.of_nat n)) args ->
  Forall (fun a => overlap_ok out a (Z.of_nat n)) args ->
  exists m', iter_res n (sbodyk f) (m, out, args) =
               Ok (m', out + Z.of_nat n, map (sadv n) args) /\
    meq m' (wr m out (Z.of_nat n) (fun i => f (map (fun a => sval d m a i) args))).
Proof.
  intros Hout Hacc Hov.
  set (v := fun i => f (map (fun a => sval d m a i) args)).
  destruct (iter_res_inv (sbodyk f)
    (fun k s => exists m1, s = (m1, out + Z.of_nat k, map (sadv k) args) /\
                           meq m1 (wr m out (Z.of_nat k) v)) n) with (s := (m, out, args))
    as (s' & E & m' & -> & G).
  - intros k s Hk (m1 & -> & Hm). cbn [sbodyk].
    rewrite mapM_map, (mapM_ok _ (fun a => sval d m a (Z.of_nat k))).
    + cbn [bind].
      destruct (store_wr m out v (Z.of_nat k) m1 (v (Z.of_nat k))) as (m2 & E2 & G2); auto; [lia|apply Hout; lia|].
      unfold v in E2 at 1. rewrite E2. cbn [bind].
      eexists. split; [reflexivity|]. exists m2. split.
      * f_equal; [f_equal; lia|]. rewrite map_map. apply map_ext. intro. apply sadv_S.
      * intro a. rewrite G2. f_equal. lia.
    + intros a Hin. rewrite Forall_forall in Hacc, Hov.
      apply (sget_spec d m m1 out (Z.of_nat n) v); auto. lia.
  - exists m. split; [|apply meq_wr_0].
    f_equal; [f_equal; lia|]. symmetry. rewrite <- (map_id args) at 2.
    apply map_ext. apply sadv_0.
  - eauto.
Qed.

(** Partial correctness: an [Ok] loop has written all its outputs. *)
Lemma iter_sbodyk_dom (f : list A -> A) n : forall m out args s',
  iter_res n (sbodyk f) (m, out, args) = Ok s' ->
  same_dom m (fst (fst s')) /\ forall i, 0 <= i < Z.of_nat n -> m (out + i) <> None.
Proof.
  induction n as [|n IH]; intros m out args s' H; cbn [iter_res] in H.
  - inversion H; subst. split; [apply same_dom_refl|lia].
  - cbn [sbodyk] in H. destruct (mapM (arg_get m) args) as [xs|]; [|discriminate]. cbn [bind] in H.
    destruct (store m out (f xs)) as [m1|] eqn:E; [|discriminate]. cbn [bind] in H.
    destruct (store_same_dom _ _ _ _ E) as [D V].
    destruct (IH _ _ _ _ H) as [D2 V2]. split; [eapply same_dom_trans; eauto|].
    intros i Hi. destruct (Z.eq_dec i 0) as [->|N]; [rewrite Z.add_0_r; exact V|].
    intro C. apply D in C. apply (V2 (i - 1)); [lia|]. rewrite <- C. f_equal. lia.
Qed.

End ScalarK.

(** * Vector *)
Section VectorK.
Context {A : Type} (ar : arith A) (B : backend).
Local Notation vec := (list A).
Local Notation step := (Z.of_nat (vsize B)).

(** Proof auxiliary: mp_iteration_k for a list of arguments. *)
Fixpoint mpk (k : nat) (m : mem A) (out : Z) (ls : list (option vec)) (args : list (varg A))
    (f : list vec -> vec) : res (mem A * list (varg A)) :=
  match k with
  | O => Ok (m, args)
  | S k' =>
      nx <- mapM (preload ar B (negb (Nat.eqb k' 0)) m) args ;;
      vs <- mapM use ls ;;
      m <- vstore_aligned B m out (f vs) ;;
      mpk k' m (out + step) (map fst nx) (map snd nx) f
  end.

(** Proof auxiliary: compile_time_unroller::run for a list of arguments. *)
Definition runk (k : nat) (m : mem A) (out : Z) (args : list (varg A)) (f : list vec -> vec)
    : res (mem A * list (varg A)) :=
  nx <- mapM (varg_consume ar B m) args ;;
  mpk k m out (map (fun p => Some (fst p)) nx) (map snd nx) f.

(** Proof auxiliary: one pass of generate_simd_loop for a list of arguments. *)
Definition loopk_body (f : list vec -> vec) (s : mem A * Z * list (varg A))
    : res (mem A * Z * list (varg A)) :=
  let '(m, out, args) := s in
  '(m, args) <- runk (vecs_per_loop B) m out args f ;;
  Ok (m, out + samples_per_loop B, args).

(** State of a wrapper after [J] vectors, and its [J]-th vector. *)
Definition vadv (J : nat) (a : varg A) : varg A :=
  match a with
  | VPtr p => VPtr (p + Z.of_nat J * step)
  | VScal x => VScal x
  | VRamp d s => VRamp (Nat.iter J (fun y => vadd ar y s) d) s
  end.

(** Proof auxiliary: a cell's content, with a default. *)
Definition cell (d : A) (m : mem A) (a : Z) : A := match m a with Some x => x | None => d end.

(** Proof auxiliary: the J-th register a wrapper yields. *)
Definition vchunk (d : A) (m : mem A) (a : varg A) (J : nat) : vec :=
  match a with
  | VPtr p => map (fun l => cell d m (p + Z.of_nat J * step + Z.of_nat l)) (seq 0 (vsize B))
  | VScal x => repeat x (vsize B)
  | VRamp dat s => Nat.iter J (fun y => vadd ar y s) dat
  end.

(** Requirements on a vector argument for [N] vectors. *)
Definition varg_ok (m : mem A) (out : Z) (N : nat) (a : varg A) : Prop :=
  match a with
  | VPtr p => accessible m p (Z.of_nat N * step) /\ aligned B p /\
              (out <= p \/ p + Z.of_nat N * step <= out)
  | VScal _ => True
  | VRamp d s => length d = vsize B /\ length s = vsize B
  end.

Lemma vadv_0 a : vadv 0 a = a.
Proof. destruct a; cbn; try reflexivity. f_equal; lia. Qed.

Lemma map2_length {X Y W} (f : X -> Y -> W) l1 l2 :
  length l1 = length l2 -> length (map2 f l1 l2) = length l1.
Proof.
  revert l2. induction l1; destruct l2; cbn; intros H; try discriminate; auto.
Qed.

Lemma iter_vadd_length d s J : length d = vsize B -> length s = vsize B ->
  length (Nat.iter J (fun y => vadd ar y s) d) = vsize B.
Proof.
  intros Hd Hs. induction J as [|J IH]; [exact Hd|]. rewrite iterS.
  unfold vadd at 1. rewrite map2_length; congruence.
Qed.

Lemma vchunk_length d m out N a J : varg_ok m out N a -> length (vchunk d m a J) = vsize B.
Proof.
  destruct a; cbn; intros H.
  - rewrite map_length, seq_length. reflexivity.
  - apply repeat_length.
  - apply iter_vadd_length; tauto.
Qed.

Lemma consume_spec d m m1 out N v K J a :
  (J < N)%nat -> (K <= J)%nat ->
  meq m1 (wr m out (Z.of_nat K * step) v) ->
  varg_ok m out N a ->
  varg_consume ar B m1 (vadv J a) = Ok (vchunk d m a J, vadv (S J) a).
Proof.
  intros HJ HK Hm Ha. pose proof (vsize_pos B) as HB.
  destruct a as [p|x|dat s]; cbn [varg_consume vadv vchunk] in *.
  - destruct Ha as (Hacc & Hal & Hov).
    unfold vload_aligned. rewrite vaddr_aligned by (apply aligned_step; exact Hal). cbn [bind].
    erewrite (load_n_spec (vsize B) m1 _
               (map (fun l => cell d m (p + Z.of_nat J * step + Z.of_nat l)) (seq 0 (vsize B)))).
    + cbn [bind]. f_equal. f_equal. f_equal. lia.
    + rewrite map_length, seq_length. reflexivity.
    + intros j Hj.
      rewrite (nth_indep _ _ (cell d m (p + Z.of_nat J * step + Z.of_nat 0)))
        by (rewrite map_length, seq_length; lia).
      rewrite (map_nth (fun l => cell d m (p + Z.of_nat J * step + Z.of_nat l))), seq_nth by lia.
      cbn [Nat.add].
      rewrite Hm, wr_out by nia.
      unfold cell. destruct (Hacc (Z.of_nat J * step + Z.of_nat j)) as [x Hx]; [nia|].
      rewrite Z.add_assoc in Hx. rewrite Hx. reflexivity.
    Unshelve. exact d.
  - reflexivity.
  - reflexivity.
Qed.

(** Every vector of results is a run of the final output. *)
Definition chunks_are (d : A) (m : mem A) (args : list (varg A)) (f : list vec -> vec)
    (N : nat) (v : Z -> A) : Prop :=
  forall J, (J < N)%nat ->
    length (f (map (fun a => vchunk d m a J) args)) = vsize B /\
    forall l, (l < vsize B)%nat ->
      nth l (f (map (fun a => vchunk d m a J) args)) d = v (Z.of_nat J * step + Z.of_nat l).

Lemma mpk_spec d m out args f v N :
  aligned B out ->
  accessible m out (Z.of_nat N * step) ->
  Forall (varg_ok m out N) args ->
  chunks_are d m args f N v ->
  forall k J m1, (0 < k)%nat -> (J + k <= N)%nat ->
    meq m1 (wr m out (Z.of_nat J * step) v) ->
    exists m2,
      mpk k m1 (out + Z.of_nat J * step) (map (fun a => Some (vchunk d m a J)) args)
          (map (vadv (S J)) args) f
        = Ok (m2, map (vadv (J + k)) args) /\
      meq m2 (wr m out (Z.of_nat (J + k) * step) v).
Proof.
  intros Hal Hacc Hargs Hch. rewrite Forall_forall in Hargs.
  pose proof (vsize_pos B) as HB.
  induction k as [|k IH]; intros J m1 Hk HJ Hm; [lia|]. cbn [mpk].
  (* the preload *)
  assert (Hpre : mapM (preload ar B (negb (Nat.eqb k 0)) m1) (map (vadv (S J)) args)
               = Ok (map (fun a => (if Nat.eqb k 0 then None else Some (vchunk d m a (S J)),
                                    vadv (if Nat.eqb k 0 then S J else S (S J)) a)) args)).
  { rewrite mapM_map. apply mapM_ok. intros a Hin. unfold preload.
    destruct (Nat.eqb_spec k 0) as [E|E]; cbn [negb]; [reflexivity|].
    rewrite (consume_spec d m m1 out N v J (S J)) by (auto; lia). reflexivity. }
  rewrite Hpre. cbn [bind].
  rewrite mapM_map, (mapM_ok _ (fun a => vchunk d m a J)) by reflexivity. cbn [bind].
  destruct (Hch J ltac:(lia)) as [Hlen Hnth].
  unfold vstore_aligned. rewrite vaddr_aligned by (apply aligned_step; exact Hal). cbn [bind].
  destruct (store_list_wr m out v (f (map (fun a => vchunk d m a J) args)) d
              (Z.of_nat J * step) m1) as (m2 & E2 & G2); auto; [lia| | |].
  { rewrite Hlen. intros i Hi. destruct (Hacc (Z.of_nat J * step + i)) as [x Hx]; [nia|].
    exists x. rewrite <- Hx. f_equal. lia. }
  { rewrite Hlen. exact Hnth. }
  rewrite E2. cbn [bind]. rewrite Hlen in G2.
  replace (Z.of_nat J * step + step) with (Z.of_nat (S J) * step) in G2 by lia.
  rewrite !map_map. cbn [fst snd].
  destruct (Nat.eqb_spec k 0) as [->|Nk].
  - cbn [mpk]. exists m2. rewrite Nat.add_1_r. split; [reflexivity|exact G2].
  - replace (out + Z.of_nat J * step + step) with (out + Z.of_nat (S J) * step) by lia.
    destruct (IH (S J) m2) as (m3 & E3 & G3); [lia|lia|exact G2|].
    exists m3. replace (J + S k)%nat with (S J + k)%nat by lia. split; [exact E3|exact G3].
Qed.

Lemma runk_spec d m out args f v N :
  aligned B out ->
  accessible m out (Z.of_nat N * step) ->
  Forall (varg_ok m out N) args ->
  chunks_are d m args f N v ->
  forall k J m1, (0 < k)%nat -> (J + k <= N)%nat ->
    meq m1 (wr m out (Z.of_nat J * step) v) ->
    exists m2,
      runk k m1 (out + Z.of_nat J * step) (map (vadv J) args) f
        = Ok (m2, map (vadv (J + k)) args) /\
      meq m2 (wr m out (Z.of_nat (J + k) * step) v).
Proof.
  intros Hal Hacc Hargs Hch k J m1 Hk HJ Hm. unfold runk.
  rewrite mapM_map, (mapM_ok _ (fun a => (vchunk d m a J, vadv (S J) a))).
  - cbn [bind]. rewrite !map_map. cbn [fst snd]. apply (mpk_spec d m out args f v N); auto.
  - intros a Hin. rewrite Forall_forall in Hargs.
    apply (consume_spec d m m1 out N v J J); auto; lia.
Qed.

Lemma loopk_spec d m out args f v T :
  aligned B out ->
  accessible m out (Z.of_nat T * loop_unit B) ->
  Forall (varg_ok m out (T * vecs_per_loop B)) args ->
  chunks_are d m args f (T * vecs_per_loop B) v ->
  exists m' s1 s2, iter_res T (loopk_body f) (m, out, args) = Ok (m', s1, s2) /\
    meq m' (wr m out (Z.of_nat T * loop_unit B) v).
Proof.
  intros Hal Hacc Hargs Hch.
  destruct (vecs_per_loop_spec B) as [HV HV0].
  set (V := vecs_per_loop B) in *.
  assert (HT : forall t, Z.of_nat (t * V) * step = Z.of_nat t * loop_unit B) by (intros; nia).
  destruct (iter_res_inv (loopk_body f)
     (fun t s => exists m1, s = (m1, out + Z.of_nat (t * V) * step, map (vadv (t * V)) args) /\
                 meq m1 (wr m out (Z.of_nat (t * V) * step) v)) T) with (s := (m, out, args))
    as (s' & E & m' & -> & G).
  - intros t s Ht (m1 & -> & Hm). cbn [loopk_body].
    destruct (runk_spec d m out args f v (T * V) Hal) with (k := V) (J := (t * V)%nat) (m1 := m1)
      as (m2 & E2 & G2); auto.
    + rewrite HT. exact Hacc.
    + nia.
    + fold V. rewrite E2. cbn [bind]. eexists. split; [reflexivity|]. exists m2.
      replace (S t * V)%nat with (t * V + V)%nat by lia. split; [|exact G2].
      f_equal. f_equal. rewrite loop_unit_spec. nia.
  - exists m. split.
    + cbn [Nat.mul]. f_equal; [f_equal; lia|]. rewrite <- (map_id args) at 1. apply map_ext.
      intro. symmetry. apply vadv_0.
    + cbn [Nat.mul]. replace (Z.of_nat 0 * step) with 0 by lia. apply meq_wr_0.
  - rewrite HT in G. eauto.
Qed.

End VectorK.
