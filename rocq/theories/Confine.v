(** What the buffer functions read and write. *)
From Coq Require Import ZArith List Lia Bool Classical Permutation.
From Verif Require Import Base Mem Loop Backend Args Drivers MemFuns Pan Spec SpecBlocks LoopFacts MemFacts KaryFacts DriverFacts.
Import ListNotations.
Local Open Scope Z_scope.

(** Outcomes in relation [Q], or the same fault. *)
Definition rr {X Y} (Q : X -> Y -> Prop) (r1 : res X) (r2 : res Y) : Prop :=
  match r1, r2 with
  | Ok x, Ok y => Q x y
  | Fault e1, Fault e2 => e1 = e2
  | _, _ => False
  end.

Lemma rr_bind {X Y X' Y'} (Q : X -> Y -> Prop) (Q' : X' -> Y' -> Prop) r1 r2 f g :
  rr Q r1 r2 -> (forall x y, Q x y -> rr Q' (f x) (g y)) -> rr Q' (bind r1 f) (bind r2 g).
Proof. destruct r1, r2; cbn [rr bind]; intros H G; auto; contradiction. Qed.

Lemma rr_iter {X} (Q : nat -> X -> X -> Prop) body k :
  (forall i x y, (i < k)%nat -> Q i x y -> rr (Q (S i)) (body x) (body y)) ->
  forall x y, Q O x y -> rr (Q k) (iter_res k body x) (iter_res k body y).
Proof.
  intros H.
  assert (G : forall j i x y, (i + j = k)%nat -> Q i x y -> rr (Q k) (iter_res j body x) (iter_res j body y)).
  { induction j as [|j IH]; intros i x y E Hq; cbn [iter_res].
    - replace k with i by lia. exact Hq.
    - apply (rr_bind (Q (S i))); [apply H; [lia|exact Hq]|]. intros x' y'. apply IH. lia. }
  intros x y. apply (G k O). reflexivity.
Qed.

Lemma rr_do_while {X} (Q : nat -> X -> X -> Prop) body n : 1 <= n < two32 ->
  (forall i x y, Z.of_nat i < n -> Q i x y -> rr (Q (S i)) (body x) (body y)) ->
  forall x y, Q O x y -> rr (Q (Z.to_nat n)) (do_while body n x) (do_while body n y).
Proof.
  intros Hn H x y Hq. rewrite !do_while_iter by assumption. apply rr_iter; [|exact Hq].
  intros i x' y' Hi. apply H. lia.
Qed.

Section Inv.
Context {A : Type} (S W : Z -> Prop) (HWS : forall a, W a -> S a).

(** Two runs in step, started from [m0] and another memory: the memories agree
    at [S], and the first one equals [m0] outside [W]. *)
Definition inv (m0 m1 m2 : mem A) : Prop :=
  (forall a, S a -> m1 a = m2 a) /\ (forall a, ~ W a -> m1 a = m0 a).

Lemma rr_load m0 m1 m2 p : inv m0 m1 m2 -> S p -> rr eq (load m1 p) (load m2 p).
Proof. intros [H _] Hp. unfold load. rewrite (H p Hp). destruct (m2 p); reflexivity. Qed.

Lemma rr_store m0 m1 m2 p x : inv m0 m1 m2 -> W p -> rr (inv m0) (store m1 p x) (store m2 p x).
Proof.
  intros [H1 H2] Hp. unfold store. rewrite (H1 p (HWS p Hp)). destruct (m2 p) as [v|]; cbn [rr]; [|reflexivity]. split; intros b Ha; unfold upd.
  - rewrite (H1 b Ha). reflexivity.
  - destruct (Z.eqb_spec b p) as [->|]; [contradiction|]. apply H2, Ha.
Qed.

Lemma rr_load_n m0 m1 m2 : inv m0 m1 m2 -> forall k p,
  (forall i, 0 <= i < Z.of_nat k -> S (p + i)) -> rr eq (load_n k m1 p) (load_n k m2 p).
Proof.
  intros H. induction k as [|k IH]; intros p Hp; cbn [load_n]; [reflexivity|].
  apply (rr_bind eq). { eapply rr_load; [exact H|]. specialize (Hp 0). rewrite Z.add_0_r in Hp. apply Hp. lia. }
  intros x ? <-. apply (rr_bind eq).
  - apply IH. intros i Hi. rewrite <- Z.add_assoc. apply Hp. lia.
  - intros l ? <-. reflexivity.
Qed.

Lemma rr_store_list m0 : forall l m1 m2 p, inv m0 m1 m2 ->
  (forall i, 0 <= i < Z.of_nat (length l) -> W (p + i)) -> rr (inv m0) (store_list m1 p l) (store_list m2 p l).
Proof.
  induction l as [|x l IH]; intros m1 m2 p H Hp; cbn [store_list]; [exact H|].
  apply (rr_bind (inv m0)).
  - apply rr_store; [exact H|]. specialize (Hp 0). rewrite Z.add_0_r in Hp. apply Hp. cbn [length]. lia.
  - intros m1' m2' H'. apply IH; [exact H'|]. intros i Hi. rewrite <- Z.add_assoc. apply Hp. cbn [length]. lia.
Qed.
End Inv.

(** A call in step with itself is confined. *)
Lemma confined_of {A} (call : mem A -> res (mem A)) (R W : Z -> Prop) :
  (forall m1 m2, (forall a, R a \/ W a -> m1 a = m2 a) ->
     rr (inv (fun a => R a \/ W a) W m1) (call m1) (call m2)) ->
  confined call R W.
Proof.
  intros H. split.
  - intros m m' E a Ha. specialize (H m m (fun _ _ => eq_refl)). rewrite E in H. cbn [rr] in H. apply H, Ha.
  - intros m1 m2 E. specialize (H m1 m2 E). unfold agree_on. destruct (call m1), (call m2); cbn [rr] in H; try assumption.
    intros b Ha. apply H. right. exact Ha.
Qed.

Lemma commute_of {A} (c1 c2 : mem A -> res (mem A)) R1 W1 R2 W2 m :
  confined c1 R1 W1 -> confined c2 R2 W2 -> apart W1 (fun a => R2 a \/ W2 a) -> apart W2 (fun a => R1 a \/ W1 a) ->
  commute c1 c2 m.
Proof.
  intros [F1 D1] [F2 D2] P1 P2. unfold commute.
  assert (G2 : forall m1, c1 m = Ok m1 -> agree_on W2 (c2 m1) (c2 m)).
  { intros m1 E. apply D2. intros a Ha. apply (F1 _ _ E). intro Hw. exact (P1 a Hw Ha). }
  assert (G1 : forall m2, c2 m = Ok m2 -> agree_on W1 (c1 m2) (c1 m)).
  { intros m2 E. apply D1. intros a Ha. apply (F2 _ _ E). intro Hw. exact (P2 a Hw Ha). }
  destruct (c1 m) as [m1|e1] eqn:E1; cbn [bind].
  - specialize (G2 m1 eq_refl). destruct (c2 m) as [m2|e2] eqn:E2; cbn [bind].
    + specialize (G1 m2 eq_refl). unfold agree_on in *.
      destruct (c2 m1) as [m12|] eqn:E12; [|contradiction]. destruct (c1 m2) as [m21|] eqn:E21; [|contradiction].
      intros a. destruct (classic (W2 a)) as [H2|H2].
      * rewrite (G2 a H2). symmetry. apply (F1 _ _ E21). intro H1. exact (P1 a H1 (or_intror H2)).
      * rewrite (F2 _ _ E12 a H2). destruct (classic (W1 a)) as [H1|H1].
        -- symmetry. apply (G1 a H1).
        -- rewrite (F1 _ _ E21 a H1), (F2 _ _ E2 a H2). apply (F1 _ _ E1 a H1).
    + unfold agree_on in G2. destruct (c2 m1); [contradiction|exact I].
  - destruct (c2 m) as [m2|] eqn:E2; cbn [bind]; [|exact I].
    specialize (G1 m2 eq_refl). unfold agree_on in G1. destruct (c1 m2); [contradiction|exact I].
Qed.

(** * Scalar *)
Section Scalar.
Context {A : Type} (ar : arith A) (S W : Z -> Prop) (HWS : forall a, W a -> S a).

Lemma rr_mapM {X Y} (Q : Y -> Prop) (f g : X -> res Y) l :
  (forall x, In x l -> rr (fun y1 y2 => y1 = y2 /\ Q y1) (f x) (g x)) ->
  rr (fun l1 l2 => l1 = l2 /\ Forall Q l1 /\ length l1 = length l) (mapM f l) (mapM g l).
Proof.
  induction l as [|x l IH]; intros H; cbn [mapM]; [repeat split; auto|].
  apply (rr_bind _ _ _ _ _ _ (H x (or_introl eq_refl))). intros y ? [<- Hy].
  apply (rr_bind _ _ _ _ _ _ (IH (fun z Hz => H z (or_intror Hz)))). intros r ? [<- [Hr Hl]].
  cbn [rr length]. repeat split; auto.
Qed.

Lemma rr_scalar (f : list A -> A) m0 m1 m2 out args n :
  (forall i, 0 <= i < Z.of_nat n -> W (out + i)) ->
  (forall p, In (APtr p) args -> forall i, 0 <= i < Z.of_nat n -> S (p + i)) ->
  inv S W m0 m1 m2 ->
  rr (fun s1 s2 => inv S W m0 (fst (fst s1)) (fst (fst s2)))
     (iter_res n (sbodyk ar f) (m1, out, args)) (iter_res n (sbodyk ar f) (m2, out, args)).
Proof.
  intros Ho Ha Hi.
  pose (Q := fun i (s1 s2 : mem A * Z * list (arg A)) =>
    snd (fst s1) = out + Z.of_nat i /\ snd (fst s2) = out + Z.of_nat i /\
    snd s1 = map (sadv ar i) args /\ snd s2 = map (sadv ar i) args /\ inv S W m0 (fst (fst s1)) (fst (fst s2))).
  assert (G : rr (Q n) (iter_res n (sbodyk ar f) (m1, out, args)) (iter_res n (sbodyk ar f) (m2, out, args))).
  { apply rr_iter.
    - intros i [[x1 o1] l1] [[x2 o2] l2] Hin (E1 & E2 & E3 & E4 & HI). cbn [fst snd] in *. subst o1 o2 l1 l2. cbn [sbodyk].
      apply (rr_bind (fun l1 l2 => l1 = l2 /\ Forall (fun _ => True) l1 /\ length l1 = length (map (sadv ar i) args))).
      { apply rr_mapM. intros x Hx. apply in_map_iff in Hx. destruct Hx as (a & <- & Hx).
        destruct a as [p| |]; cbn [sadv arg_get]; try (split; auto; fail).
        pose proof (rr_load S W _ _ _ (p + Z.of_nat i) HI (Ha p Hx (Z.of_nat i) (conj (Zle_0_nat i) (inj_lt _ _ Hin)))) as R.
        destruct (load x1 _), (load x2 _); cbn [rr] in *; auto. }
      intros xs ? [<- _]. apply (rr_bind (inv S W m0)). { apply rr_store; auto. apply Ho. lia. }
      intros y1 y2 HI'. repeat split; cbn [fst snd]; try lia; try apply HI'; rewrite map_map; apply map_ext; intro; apply sadv_S.
    - repeat split; cbn [fst snd]; try lia; try apply Hi; symmetry; rewrite (map_ext _ (fun a => a)) by (intro; apply sadv_0); apply map_id. }
  destruct (iter_res n (sbodyk ar f) (m1, out, args)), (iter_res n (sbodyk ar f) (m2, out, args)); cbn [rr] in *; auto. apply G.
Qed.
End Scalar.

Section ScalarCalls.
Context {A : Type} (ar : arith A).

Lemma rr_embed {X Y Z W} (Q : X -> Y -> Prop) (Q' : Z -> W -> Prop) (e : Z -> X) (e' : W -> Y) r1 r2 :
  (forall x y, Q (e x) (e' y) -> Q' x y) -> rr Q (rmap e r1) (rmap e' r2) -> rr Q' r1 r2.
Proof. destruct r1, r2; cbn; auto. Qed.

(** The addresses of a list of arguments. *)
Definition args_range (l : list (arg A)) (n : Z) (a : Z) : Prop := exists x, In x l /\ arg_range x n a.

Lemma confined_scalar {X} (body : X -> res X) (e : X -> mem A * Z * list (arg A)) (st : mem A -> X) (f : list A -> A)
    (call : mem A -> res (mem A)) out args n (R : Z -> Prop) :
  (forall s, sbodyk ar f (e s) = rmap e (body s)) ->
  (forall m, e (st m) = (m, out, args)) ->
  (forall m, call m = rmap (fun s => fst (fst (e s))) (do_while body n (st m))) ->
  0 < n < 2 ^ 32 -> (forall a, args_range args n a -> R a) ->
  confined call R (range out n).
Proof.
  intros He Hst Hc Hn HR. apply confined_of. intros m1 m2 H. rewrite !Hc.
  rewrite !do_while_iter by (unfold two32; lia).
  assert (G : rr (fun s1 s2 => inv (fun a => R a \/ range out n a) (range out n) m1 (fst (fst s1)) (fst (fst s2)))
    (iter_res (Z.to_nat n) (sbodyk ar f) (m1, out, args)) (iter_res (Z.to_nat n) (sbodyk ar f) (m2, out, args))).
  { apply rr_scalar.
    - intros a Ha. right. exact Ha.
    - intros i Hi. unfold range. lia.
    - intros p Hp i Hi. left. apply HR. exists (APtr p). split; [exact Hp|]. cbn [arg_range]. unfold range. lia.
    - split; intros a Ha; [apply H, Ha|reflexivity]. }
  rewrite <- !Hst, !(iter_res_embed _ _ e He) in G.
  destruct (iter_res _ body (st m1)), (iter_res _ body (st m2)); cbn [rmap rr] in *; auto.
Qed.

Lemma unary_confined (f : A -> A) out inp n : 0 < n < 2 ^ 32 ->
  confined (fun m => unary_vec f m out inp n) (range inp n) (range out n).
Proof.
  intros Hn.
  apply (confined_scalar (sbody1 f) (fun s => let '(m, out, i) := s in (m, out, [APtr i])) (fun m => (m, out, inp)) (fk1 (a_zero ar) f) _ out [APtr inp] n);
    auto.
  - apply sbody1_embed.
  - intro m. unfold unary_vec, apply_on_vector1. destruct (do_while _ _ _) as [[[? ?] ?]|]; reflexivity.
  - intros a (x & [<-|[]] & Hx). exact Hx.
Qed.

Lemma binary_confined (f : A -> A -> A) out a1 a2 n : 0 < n < 2 ^ 32 ->
  confined (fun m => binary_vec ar f m out a1 a2 n) (fun a => arg_range a1 n a \/ arg_range a2 n a) (range out n).
Proof.
  intros Hn.
  apply (confined_scalar (sbody2 ar f) (fun s => let '(m, out, i, j) := s in (m, out, [i; j])) (fun m => (m, out, a1, a2))
    (fk2 (a_zero ar) f) _ out [a1; a2] n); auto.
  - apply sbody2_embed.
  - intro m. unfold binary_vec, apply_on_vector2. destruct (do_while _ _ _) as [[[[? ?] ?] ?]|]; reflexivity.
  - intros a (x & Hin & Hx). cbn [In] in Hin. intuition (subst; auto).
Qed.

Lemma ternary_confined (f : A -> A -> A -> A) out a1 a2 a3 n : 0 < n < 2 ^ 32 ->
  confined (fun m => ternary_vec ar f m out a1 a2 a3 n) (fun a => arg_range a1 n a \/ arg_range a2 n a \/ arg_range a3 n a) (range out n).
Proof.
  intros Hn.
  apply (confined_scalar (sbody3 ar f) (fun s => let '(m, out, i, j, k) := s in (m, out, [i; j; k])) (fun m => (m, out, a1, a2, a3))
    (fk3 (a_zero ar) f) _ out [a1; a2; a3] n); auto.
  - apply sbody3_embed.
  - intro m. unfold ternary_vec, apply_on_vector3. destruct (do_while _ _ _) as [[[[[? ?] ?] ?] ?]|]; reflexivity.
  - intros a (x & Hin & Hx). cbn [In] in Hin. intuition (subst; auto).
Qed.

Lemma quaternary_confined (f : A -> A -> A -> A -> A) out a1 a2 a3 a4 n : 0 < n < 2 ^ 32 ->
  confined (fun m => quaternary_vec ar f m out a1 a2 a3 a4 n) (fun a => arg_range a1 n a \/ arg_range a2 n a \/ arg_range a3 n a \/ arg_range a4 n a) (range out n).
Proof.
  intros Hn.
  apply (confined_scalar (sbody4 ar f) (fun s => let '(m, out, i, j, k, h) := s in (m, out, [i; j; k; h])) (fun m => (m, out, a1, a2, a3, a4))
    (fk4 (a_zero ar) f) _ out [a1; a2; a3; a4] n); auto.
  - apply sbody4_embed.
  - intro m. unfold quaternary_vec, apply_on_vector4. destruct (do_while _ _ _) as [[[[[[? ?] ?] ?] ?] ?]|]; reflexivity.
  - intros a (x & Hin & Hx). cbn [In] in Hin. intuition (subst; auto).
Qed.
End ScalarCalls.

(** * Vector *)
Lemma vaddr_in_place B p : in_place B p ->
  (vaddr (aligned_rule B) B p = Ok p \/ exists e, vaddr (aligned_rule B) B p = Fault e) /\ vaddr (unaligned_rule B) B p = Ok p.
Proof.
  intros H. destruct B; cbn [aligned_rule unaligned_rule vaddr]; try (split; [left|]; reflexivity);
    try (destruct (p mod _ =? 0); split; [left|reflexivity|right; eexists|]; reflexivity).
  specialize (H eq_refl). apply vaddr_aligned in H. cbn [aligned_rule vaddr] in H. rewrite H. auto.
Qed.

Lemma in_place_step B p k : in_place B p -> in_place B (p + k * Z.of_nat (vsize B)).
Proof. intros H E. apply aligned_step, H, E. Qed.

Lemma load_n_length {A} : forall k (m : mem A) a l, load_n k m a = Ok l -> length l = k.
Proof.
  induction k as [|k IH]; intros m a l H; cbn [load_n] in H; [injection H as <-; reflexivity|].
  destruct (load m a); cbn [bind] in H; [|discriminate].
  destruct (load_n k m (a + 1)) eqn:E; cbn [bind] in H; [|discriminate]. injection H as <-. cbn [length]. f_equal. eauto.
Qed.

Section Vector.
Context {A : Type} (ar : arith A) (B : backend) (S W : Z -> Prop) (HWS : forall a, W a -> S a).
Local Notation vec := (list A).
Local Notation step := (Z.of_nat (vsize B)).

(** [c] vectors from [p] on lie in [T]. *)
Definition vecs_in (T : Z -> Prop) (p : Z) (c : nat) : Prop :=
  in_place B p /\ forall i, 0 <= i < Z.of_nat c * step -> T (p + i).
(** The argument can deliver [c] more vectors from [S]. *)
Definition okv (c : nat) (a : varg A) : Prop :=
  match a with
  | VPtr p => vecs_in S p c
  | VScal _ => True
  | VRamp d s => length d = vsize B /\ length s = vsize B
  end.

Lemma vecs_step T p c : vecs_in T p (Datatypes.S c) -> vecs_in T (p + step) c.
Proof.
  intros [H1 H2]. split.
  - replace step with (1 * step) by lia. apply in_place_step, H1.
  - intros i Hi. rewrite <- Z.add_assoc. apply H2. lia.
Qed.

Lemma vecs_0 T p c : vecs_in T p (Datatypes.S c) -> in_place B p /\ forall i, 0 <= i < step -> T (p + i).
Proof. intros [H1 H2]. split; [exact H1|]. intros i Hi. apply H2. lia. Qed.

Lemma rr_vload (m0 m1 m2 : mem A) p c : inv S W m0 m1 m2 -> vecs_in S p (Datatypes.S c) ->
  rr (fun u v => u = v /\ length u = vsize B) (vload_aligned B m1 p) (vload_aligned B m2 p) /\
  rr (fun u v => u = v /\ length u = vsize B) (vload B m1 p) (vload B m2 p).
Proof.
  intros HI H. apply vecs_0 in H. destruct H as [H1 H2]. apply vaddr_in_place in H1.
  pose proof (rr_load_n S W m0 m1 m2 HI (vsize B) p H2) as R.
  assert (G : rr (fun u v => u = v /\ length u = vsize B) (load_n (vsize B) m1 p) (load_n (vsize B) m2 p)).
  { destruct (load_n (vsize B) m1 p) eqn:E, (load_n (vsize B) m2 p); cbn [rr] in *; auto. subst. split; [reflexivity|]. eapply load_n_length, E. }
  unfold vload_aligned, vload. destruct H1 as [[->|[e ->]] ->]; cbn [bind]; split; auto. reflexivity.
Qed.

Lemma rr_vstore (m0 m1 m2 : mem A) p c v : inv S W m0 m1 m2 -> vecs_in W p (Datatypes.S c) -> length v = vsize B ->
  rr (inv S W m0) (vstore_aligned B m1 p v) (vstore_aligned B m2 p v) /\
  rr (inv S W m0) (vstore B m1 p v) (vstore B m2 p v).
Proof.
  intros HI H Hv. apply vecs_0 in H. destruct H as [H1 H2]. apply vaddr_in_place in H1.
  rewrite <- Hv in H2. pose proof (rr_store_list S W HWS m0 v m1 m2 p HI H2) as R.
  unfold vstore_aligned, vstore. destruct H1 as [[->|[e ->]] ->]; cbn [bind]; split; auto. reflexivity.
Qed.

Lemma rr_consume m0 m1 m2 a c : inv S W m0 m1 m2 -> okv (Datatypes.S c) a ->
  rr (fun x y => x = y /\ (length (fst x) = vsize B /\ okv c (snd x))) (varg_consume ar B m1 a) (varg_consume ar B m2 a).
Proof.
  intros HI H. destruct a as [p|x|d s]; cbn [varg_consume okv] in *.
  - apply (rr_bind (fun u v => u = v /\ length u = vsize B)). { eapply rr_vload; eassumption. }
    intros u ? [<- Hl]. cbn [rr fst snd okv]. repeat split; auto; apply (vecs_step S p c H).
  - cbn [rr fst snd okv]. unfold set_vec. rewrite repeat_length. auto.
  - destruct H as [H1 H2]. cbn [rr fst snd okv]. repeat split; auto. unfold vadd. rewrite map2_length by congruence. exact H1.
Qed.

(** A vector operation on a list of operands. *)
Definition sizedk (k : nat) (f : list vec -> vec) : Prop :=
  forall l, length l = k -> Forall (fun v => length v = vsize B) l -> length (f l) = vsize B.

Lemma rr_mpk q f m0 : sizedk q f -> forall k c m1 m2 out vs args,
  inv S W m0 m1 m2 -> vecs_in W out (k + c) -> length vs = q -> length args = q -> Forall (fun v => length v = vsize B) vs ->
  Forall (okv (Nat.pred k + c)) args ->
  rr (fun x y => inv S W m0 (fst x) (fst y) /\ snd x = snd y /\ Forall (okv c) (snd x) /\ length (snd x) = q)
     (mpk ar B k m1 out (map Some vs) args f) (mpk ar B k m2 out (map Some vs) args f).
Proof.
  intros Hf. induction k as [|k IH]; intros c m1 m2 out vs args HI Ho Hvs Ha Hl Hok; cbn [mpk].
  { cbn [rr fst snd]. auto. }
  destruct k as [|k].
  - cbn [Nat.eqb negb preload].
    assert (E : forall m : mem A, mapM (preload ar B false m) args = Ok (map (fun a => (None, a)) args)).
    { intro m. clear. induction args as [|a l IH]; cbn [mapM map]; [reflexivity|]. cbn [preload bind]. rewrite IH. reflexivity. }
    rewrite !E. cbn [bind].
    assert (E2 : mapM use (map Some vs) = Ok vs).
    { clear. induction vs as [|a l IH]; cbn [mapM map]; [reflexivity|]. cbn [use bind]. rewrite IH. reflexivity. }
    rewrite E2. cbn [bind].
    apply (rr_bind (inv S W m0)). { eapply rr_vstore; [exact HI|exact Ho|]. apply Hf; assumption. }
    intros y1 y2 HI'. cbn [mpk rr fst snd]. rewrite map_map. cbn [snd]. rewrite map_id. cbn [Nat.pred Nat.add] in Hok. auto.
  - cbn [Nat.eqb negb]. change (Nat.pred (Datatypes.S (Datatypes.S k)) + c)%nat with (Datatypes.S (k + c)) in Hok.
    apply (rr_bind (fun l1 l2 => l1 = l2 /\ Forall (fun x => exists v, fst x = Some v /\ length v = vsize B /\ okv (k + c) (snd x)) l1 /\ length l1 = length args)).
    { apply rr_mapM. intros a Hin. rewrite Forall_forall in Hok. specialize (Hok a Hin).
      pose proof (rr_consume _ _ _ _ _ HI Hok) as R. unfold preload.
      destruct (varg_consume ar B m1 a) as [[v a']|], (varg_consume ar B m2 a) as [[v2 a2]|]; cbn [rr bind fst snd] in *; auto.
      destruct R as (E & R1 & R2). injection E as <- <-. split; [reflexivity|]. exists v. auto. }
    intros nx ? (<- & Hnx & Hlen).
    assert (E2 : mapM use (map Some vs) = Ok vs).
    { clear. induction vs as [|a l IH]; cbn [mapM map]; [reflexivity|]. cbn [use bind]. rewrite IH. reflexivity. }
    rewrite E2. cbn [bind].
    apply (rr_bind (inv S W m0)). { eapply rr_vstore; [exact HI|exact Ho|]. apply Hf; assumption. }
    intros y1 y2 HI'.
    assert (EV : exists ws, map fst nx = map Some ws /\ length ws = length nx /\ Forall (fun v => length v = vsize B) ws).
    { clear - Hnx. induction Hnx as [|x l (v & E & L & _) _ (ws & E1 & E2 & E3)]; [exists []; auto|].
      exists (v :: ws). cbn [map length]. rewrite E, E1. repeat split; auto. }
    destruct EV as (ws & E1 & E3 & E4). rewrite E1.
    apply IH; auto.
    + apply (vecs_step W out (Datatypes.S k + c) Ho).
    + lia.
    + rewrite map_length. lia.
    + cbn [Nat.pred]. apply Forall_map. eapply Forall_impl; [|exact Hnx]. intros x (v & _ & _ & H). exact H.
Qed.

Lemma rr_runk q f m0 k c m1 m2 out args : sizedk q f -> (0 < k)%nat ->
  inv S W m0 m1 m2 -> vecs_in W out (k + c) -> length args = q -> Forall (okv (k + c)) args ->
  rr (fun x y => inv S W m0 (fst x) (fst y) /\ snd x = snd y /\ Forall (okv c) (snd x) /\ length (snd x) = q)
     (runk ar B k m1 out args f) (runk ar B k m2 out args f).
Proof.
  intros Hf Hk HI Ho Ha Hok. destruct k as [|k]; [lia|]. unfold runk.
  apply (rr_bind (fun l1 l2 => l1 = l2 /\ Forall (fun x => length (fst x) = vsize B /\ okv (k + c) (snd x)) l1 /\ length l1 = length args)).
  { apply rr_mapM. intros a Hin. rewrite Forall_forall in Hok. eapply rr_consume; [exact HI|]. apply (Hok a Hin). }
  intros nx ? (<- & Hnx & Hlen).
  rewrite <- (map_map fst Some). apply (rr_mpk q); auto.
  - rewrite map_length. lia.
  - rewrite map_length. lia.
  - apply Forall_map. eapply Forall_impl; [|exact Hnx]. intros x [H _]. exact H.
  - cbn [Nat.pred]. apply Forall_map. eapply Forall_impl; [|exact Hnx]. intros x [_ H]. exact H.
Qed.

Lemma rr_loopk q f m0 T m1 m2 out args : sizedk q f ->
  inv S W m0 m1 m2 -> vecs_in W out (T * vecs_per_loop B) -> length args = q -> Forall (okv (T * vecs_per_loop B)) args ->
  rr (fun s1 s2 => inv S W m0 (fst (fst s1)) (fst (fst s2)))
     (iter_res T (loopk_body ar B f) (m1, out, args)) (iter_res T (loopk_body ar B f) (m2, out, args)).
Proof.
  intros Hf HI Ho Ha Hok. destruct (vecs_per_loop_spec B) as [HV HP].
  pose (Q := fun i (s1 s2 : mem A * Z * list (varg A)) =>
    snd (fst s1) = snd (fst s2) /\ snd s1 = snd s2 /\ inv S W m0 (fst (fst s1)) (fst (fst s2)) /\
    vecs_in W (snd (fst s1)) ((T - i) * vecs_per_loop B) /\ Forall (okv ((T - i) * vecs_per_loop B)) (snd s1) /\ length (snd s1) = q).
  assert (G : rr (Q T) (iter_res T (loopk_body ar B f) (m1, out, args)) (iter_res T (loopk_body ar B f) (m2, out, args))).
  { apply rr_iter.
    - intros i [[x1 o1] l1] [[x2 o2] l2] Hin (E1 & E2 & HI' & Ho' & Hok' & Hq). cbn [fst snd] in *. subst o2 l2. cbn [loopk_body].
      assert (ET : ((T - i) * vecs_per_loop B = vecs_per_loop B + (T - Datatypes.S i) * vecs_per_loop B)%nat) by nia.
      rewrite ET in *.
      apply (rr_bind _ _ _ _ _ _ (rr_runk q f m0 (vecs_per_loop B) _ x1 x2 o1 l1 Hf HP HI' Ho' Hq Hok')).
      intros [y1 a1] [y2 a2] (HI2 & E & Hok2 & Hq2). cbn [fst snd] in *. subst a2. cbn [rr]. unfold Q. cbn [fst snd].
      repeat split; auto; try apply HI2.
      + rewrite loop_unit_spec, <- HV. apply in_place_step, Ho'.
      + intros j Hj. rewrite loop_unit_spec, <- HV, <- Z.add_assoc. apply Ho'. rewrite Nat2Z.inj_add. nia.
    - unfold Q. cbn [fst snd]. rewrite Nat.sub_0_r. repeat split; auto; try apply HI; apply Ho. }
  destruct (iter_res T (loopk_body ar B f) (m1, out, args)), (iter_res T (loopk_body ar B f) (m2, out, args)); cbn [rr] in *; auto. apply G.
Qed.
End Vector.

Section VectorCalls.
Context {A : Type} (ar : arith A) (B : backend).
Local Notation vec := (list A).
Local Notation step := (Z.of_nat (vsize B)).
Local Notation wrap := (wrap_vector_arg ar B).

Lemma okv_wrap (S : Z -> Prop) c (args : list (arg A)) : Forall (arg_in_place B) args ->
  (forall p, In (APtr p) args -> forall i, 0 <= i < Z.of_nat c * step -> S (p + i)) ->
  Forall (okv B S c) (map wrap args).
Proof.
  intros Hp HS. apply Forall_map, Forall_forall. intros a Hin. rewrite Forall_forall in Hp. specialize (Hp a Hin).
  destruct a as [p|x|b s]; cbn [wrap_vector_arg okv]; auto.
  - split; [exact Hp|]. apply HS, Hin.
  - pose proof (set_slope_length ar B b s) as L. destruct (set_slope ar B b s). cbn [fst okv] in *. unfold set_vec. rewrite repeat_length. auto.
Qed.

Lemma confined_vector {X} (body : X -> res X) (e : X -> mem A * Z * list (varg A)) (st : mem A -> X) (f : list vec -> vec)
    (call : mem A -> res (mem A)) out args n (R : Z -> Prop) :
  (forall s, loopk_body ar B f (e s) = rmap e (body s)) ->
  (forall m, e (st m) = (m, out, map wrap args)) ->
  (forall m, call m = rmap (fun s => fst (fst (e s))) (do_while body (n / samples_per_loop B) (st m))) ->
  sizedk B (length args) f -> in_place B out -> Forall (arg_in_place B) args ->
  loop_unit B <= n < 2 ^ 32 -> (forall a, args_range args n a -> R a) ->
  confined call R (range out n).
Proof.
  intros He Hst Hc Hf Ho Ha Hn HR. apply confined_of. intros m1 m2 H. rewrite !Hc.
  rewrite !do_while_iter by (apply count_ok; unfold two32; lia).
  destruct (vecs_per_loop_spec B) as [HV HP]. pose proof (loop_unit_pos B) as HU.
  set (T := Z.to_nat (n / samples_per_loop B)).
  assert (HT : Z.of_nat (T * vecs_per_loop B) * step <= n).
  { rewrite Nat2Z.inj_mul, <- Z.mul_assoc, HV. unfold T. rewrite loop_unit_spec, Z2Nat.id by (apply Z.div_pos; lia).
    rewrite Z.mul_comm. apply Z.mul_div_le. lia. }
  assert (G : rr (fun s1 s2 => inv (fun a => R a \/ range out n a) (range out n) m1 (fst (fst s1)) (fst (fst s2)))
    (iter_res T (loopk_body ar B f) (m1, out, map wrap args)) (iter_res T (loopk_body ar B f) (m2, out, map wrap args))).
  { apply (rr_loopk ar B _ _ (fun a Ha => or_intror Ha) (length args)); auto.
    - split; intros a Hx; [apply H, Hx|reflexivity].
    - split; [exact Ho|]. intros i Hi. unfold range. lia.
    - apply map_length.
    - apply okv_wrap; [exact Ha|]. intros p Hp i Hi. left. apply HR. exists (APtr p). split; [exact Hp|]. cbn [arg_range]. unfold range. lia. }
  rewrite <- !Hst, !(iter_res_embed _ _ e He) in G.
  destruct (iter_res T body (st m1)), (iter_res T body (st m2)); cbn [rmap rr] in *; auto.
Qed.

Lemma confined_unrolled k (f : list vec -> vec) (call : mem A -> res (mem A)) out args (R : Z -> Prop) :
  (forall m, call m = rmap fst (runk ar B k m out (map wrap args) f)) ->
  sizedk B (length args) f -> in_place B out -> Forall (arg_in_place B) args ->
  (0 < k)%nat -> (forall a, args_range args (Z.of_nat k * step) a -> R a) ->
  confined call R (range out (Z.of_nat k * step)).
Proof.
  intros Hc Hf Ho Ha Hk HR. apply confined_of. intros m1 m2 H. rewrite !Hc.
  assert (G : rr (fun x y => inv (fun a => R a \/ range out (Z.of_nat k * step) a) (range out (Z.of_nat k * step)) m1 (fst x) (fst y) /\ snd x = snd y
      /\ Forall (okv B (fun a => R a \/ range out (Z.of_nat k * step) a) 0) (snd x) /\ length (snd x) = length args)
    (runk ar B k m1 out (map wrap args) f) (runk ar B k m2 out (map wrap args) f)).
  { apply (rr_runk ar B _ _ (fun a Ha => or_intror Ha) (length args)); auto.
    - split; intros a Hx; [apply H, Hx|reflexivity].
    - split; [exact Ho|]. intros i Hi. unfold range. lia.
    - apply map_length.
    - apply okv_wrap; [exact Ha|]. intros p Hp i Hi. left. apply HR. exists (APtr p). split; [exact Hp|]. cbn [arg_range]. unfold range. lia. }
  destruct (runk ar B k m1 out _ f), (runk ar B k m2 out _ f); cbn [rmap rr] in *; auto. apply G.
Qed.


Lemma sized1_k (f : vec -> vec) : sized1 B f -> sizedk B 1 (fk1 [] f).
Proof. intros Hf l Hl HF. destruct l as [|v1 l]; [discriminate|]. destruct l; [|discriminate]. inversion HF as [|? ? L1 HF1]; subst; clear HF; rename HF1 into HF. cbn [fk1]. apply Hf; assumption. Qed.

Lemma unary_simd_confined (f : vec -> vec) out inp n : sized1 B f -> in_place B out -> in_place B inp ->
  loop_unit B <= n < 2 ^ 32 ->
  confined (fun m => unary_vec_simd ar B f m out inp n) (range inp (n)) (range out n).
Proof.
  intros Hf Ho H1 Hn.
  apply (confined_vector (lbody1 ar B f) e1 (fun m => (m, out, wrap (APtr inp))) (fk1 [] f) _ out [APtr inp] n); auto.
  - apply lbody1_embed.
  - intro m. unfold unary_vec_simd, generate_simd_loop1. fold (lbody1 ar B f). destruct (do_while _ _ _) as [[[? ?] ?]|]; reflexivity.
  - apply sized1_k, Hf.
  - intros a (x & Hin & Hx). cbn [In] in Hin. intuition (subst; auto).
Qed.

Lemma unary_ct_confined k (f : vec -> vec) out inp : sized1 B f -> in_place B out -> in_place B inp -> (0 < k)%nat ->
  confined (fun m => unary_vec_simd_ct ar B k f m out inp) (range inp (Z.of_nat k * step)) (range out (Z.of_nat k * step)).
Proof.
  intros Hf Ho H1 Hk.
  apply (confined_unrolled k (fk1 [] f) _ out [APtr inp]); auto.
  - intro m. cbn [map]. rewrite run1_embed. unfold unary_vec_simd_ct. cbn [wrap_vector_arg]. destruct (run1 _ _ _ _ _ _ _) as [[? ?]|]; reflexivity.
  - apply sized1_k, Hf.
  - intros a (x & Hin & Hx). cbn [In] in Hin. intuition (subst; auto).
Qed.

Lemma sized2_k (f : vec -> vec -> vec) : sized2 B f -> sizedk B 2 (fk2 [] f).
Proof. intros Hf l Hl HF. destruct l as [|v1 l]; [discriminate|]. destruct l as [|v2 l]; [discriminate|]. destruct l; [|discriminate]. inversion HF as [|? ? L1 HF1]; subst; clear HF; rename HF1 into HF. inversion HF as [|? ? L2 HF2]; subst; clear HF; rename HF2 into HF. cbn [fk2]. apply Hf; assumption. Qed.

Lemma binary_simd_confined (f : vec -> vec -> vec) out a1 a2 n : sized2 B f -> in_place B out -> arg_in_place B a1 -> arg_in_place B a2 ->
  loop_unit B <= n < 2 ^ 32 ->
  confined (fun m => binary_vec_simd ar B f m out a1 a2 n) (fun a => arg_range a1 (n) a \/ arg_range a2 (n) a) (range out n).
Proof.
  intros Hf Ho H1 H2 Hn.
  apply (confined_vector (lbody2 ar B f) e2 (fun m => (m, out, wrap a1, wrap a2)) (fk2 [] f) _ out [a1; a2] n); auto.
  - apply lbody2_embed.
  - intro m. unfold binary_vec_simd, generate_simd_loop2. fold (lbody2 ar B f). destruct (do_while _ _ _) as [[[[? ?] ?] ?]|]; reflexivity.
  - apply sized2_k, Hf.
  - intros a (x & Hin & Hx). cbn [In] in Hin. intuition (subst; auto).
Qed.

Lemma binary_ct_confined k (f : vec -> vec -> vec) out a1 a2 : sized2 B f -> in_place B out -> arg_in_place B a1 -> arg_in_place B a2 -> (0 < k)%nat ->
  confined (fun m => binary_vec_simd_ct ar B k f m out a1 a2) (fun a => arg_range a1 (Z.of_nat k * step) a \/ arg_range a2 (Z.of_nat k * step) a) (range out (Z.of_nat k * step)).
Proof.
  intros Hf Ho H1 H2 Hk.
  apply (confined_unrolled k (fk2 [] f) _ out [a1; a2]); auto.
  - intro m. cbn [map]. rewrite run2_embed. unfold binary_vec_simd_ct. destruct (run2 _ _ _ _ _ _ _ _) as [[[? ?] ?]|]; reflexivity.
  - apply sized2_k, Hf.
  - intros a (x & Hin & Hx). cbn [In] in Hin. intuition (subst; auto).
Qed.

Lemma sized3_k (f : vec -> vec -> vec -> vec) : sized3 B f -> sizedk B 3 (fk3 [] f).
Proof. intros Hf l Hl HF. destruct l as [|v1 l]; [discriminate|]. destruct l as [|v2 l]; [discriminate|]. destruct l as [|v3 l]; [discriminate|]. destruct l; [|discriminate]. inversion HF as [|? ? L1 HF1]; subst; clear HF; rename HF1 into HF. inversion HF as [|? ? L2 HF2]; subst; clear HF; rename HF2 into HF. inversion HF as [|? ? L3 HF3]; subst; clear HF; rename HF3 into HF. cbn [fk3]. apply Hf; assumption. Qed.

Lemma ternary_simd_confined (f : vec -> vec -> vec -> vec) out a1 a2 a3 n : sized3 B f -> in_place B out -> arg_in_place B a1 -> arg_in_place B a2 -> arg_in_place B a3 ->
  loop_unit B <= n < 2 ^ 32 ->
  confined (fun m => ternary_vec_simd ar B f m out a1 a2 a3 n) (fun a => arg_range a1 (n) a \/ arg_range a2 (n) a \/ arg_range a3 (n) a) (range out n).
Proof.
  intros Hf Ho H1 H2 H3 Hn.
  apply (confined_vector (lbody3 ar B f) e3 (fun m => (m, out, wrap a1, wrap a2, wrap a3)) (fk3 [] f) _ out [a1; a2; a3] n); auto.
  - apply lbody3_embed.
  - intro m. unfold ternary_vec_simd, generate_simd_loop3. fold (lbody3 ar B f). destruct (do_while _ _ _) as [[[[[? ?] ?] ?] ?]|]; reflexivity.
  - apply sized3_k, Hf.
  - intros a (x & Hin & Hx). cbn [In] in Hin. intuition (subst; auto).
Qed.

Lemma ternary_ct_confined k (f : vec -> vec -> vec -> vec) out a1 a2 a3 : sized3 B f -> in_place B out -> arg_in_place B a1 -> arg_in_place B a2 -> arg_in_place B a3 -> (0 < k)%nat ->
  confined (fun m => ternary_vec_simd_ct ar B k f m out a1 a2 a3) (fun a => arg_range a1 (Z.of_nat k * step) a \/ arg_range a2 (Z.of_nat k * step) a \/ arg_range a3 (Z.of_nat k * step) a) (range out (Z.of_nat k * step)).
Proof.
  intros Hf Ho H1 H2 H3 Hk.
  apply (confined_unrolled k (fk3 [] f) _ out [a1; a2; a3]); auto.
  - intro m. cbn [map]. rewrite run3_embed. unfold ternary_vec_simd_ct. destruct (run3 _ _ _ _ _ _ _ _ _) as [[[[? ?] ?] ?]|]; reflexivity.
  - apply sized3_k, Hf.
  - intros a (x & Hin & Hx). cbn [In] in Hin. intuition (subst; auto).
Qed.

Lemma sized4_k (f : vec -> vec -> vec -> vec -> vec) : sized4 B f -> sizedk B 4 (fk4 [] f).
Proof. intros Hf l Hl HF. destruct l as [|v1 l]; [discriminate|]. destruct l as [|v2 l]; [discriminate|]. destruct l as [|v3 l]; [discriminate|]. destruct l as [|v4 l]; [discriminate|]. destruct l; [|discriminate]. inversion HF as [|? ? L1 HF1]; subst; clear HF; rename HF1 into HF. inversion HF as [|? ? L2 HF2]; subst; clear HF; rename HF2 into HF. inversion HF as [|? ? L3 HF3]; subst; clear HF; rename HF3 into HF. inversion HF as [|? ? L4 HF4]; subst; clear HF; rename HF4 into HF. cbn [fk4]. apply Hf; assumption. Qed.

Lemma quaternary_simd_confined (f : vec -> vec -> vec -> vec -> vec) out a1 a2 a3 a4 n : sized4 B f -> in_place B out -> arg_in_place B a1 -> arg_in_place B a2 -> arg_in_place B a3 -> arg_in_place B a4 ->
  loop_unit B <= n < 2 ^ 32 ->
  confined (fun m => quaternary_vec_simd ar B f m out a1 a2 a3 a4 n) (fun a => arg_range a1 (n) a \/ arg_range a2 (n) a \/ arg_range a3 (n) a \/ arg_range a4 (n) a) (range out n).
Proof.
  intros Hf Ho H1 H2 H3 H4 Hn.
  apply (confined_vector (lbody4 ar B f) e4 (fun m => (m, out, wrap a1, wrap a2, wrap a3, wrap a4)) (fk4 [] f) _ out [a1; a2; a3; a4] n); auto.
  - apply lbody4_embed.
  - intro m. unfold quaternary_vec_simd, generate_simd_loop4. fold (lbody4 ar B f). destruct (do_while _ _ _) as [[[[[[? ?] ?] ?] ?] ?]|]; reflexivity.
  - apply sized4_k, Hf.
  - intros a (x & Hin & Hx). cbn [In] in Hin. intuition (subst; auto).
Qed.

Lemma quaternary_ct_confined k (f : vec -> vec -> vec -> vec -> vec) out a1 a2 a3 a4 : sized4 B f -> in_place B out -> arg_in_place B a1 -> arg_in_place B a2 -> arg_in_place B a3 -> arg_in_place B a4 -> (0 < k)%nat ->
  confined (fun m => quaternary_vec_simd_ct ar B k f m out a1 a2 a3 a4) (fun a => arg_range a1 (Z.of_nat k * step) a \/ arg_range a2 (Z.of_nat k * step) a \/ arg_range a3 (Z.of_nat k * step) a \/ arg_range a4 (Z.of_nat k * step) a) (range out (Z.of_nat k * step)).
Proof.
  intros Hf Ho H1 H2 H3 H4 Hk.
  apply (confined_unrolled k (fk4 [] f) _ out [a1; a2; a3; a4]); auto.
  - intro m. cbn [map]. rewrite run4_embed. unfold quaternary_vec_simd_ct. destruct (run4 _ _ _ _ _ _ _ _ _ _) as [[[[[? ?] ?] ?] ?]|]; reflexivity.
  - apply sized4_k, Hf.
  - intros a (x & Hin & Hx). cbn [In] in Hin. intuition (subst; auto).
Qed.

End VectorCalls.

(** * Fills, copies, sums and pan2 *)
Lemma rr_down {X} (J : nat -> X -> X -> Prop) body v T :
  (forall c x y, J (v + c)%nat x y -> rr (J c) (body x) (body y)) ->
  forall x y, J (T * v)%nat x y -> rr (J O) (iter_res T body x) (iter_res T body y).
Proof.
  intros H. induction T as [|T IH]; intros x y HJ; cbn [iter_res]; [exact HJ|].
  cbn [Nat.mul] in HJ. apply (rr_bind (J (T * v)%nat)); [apply H, HJ|]. exact IH.
Qed.

(** [c] elements from [p] on lie in [T]. *)
Definition cells_in (T : Z -> Prop) (p : Z) (c : nat) : Prop := forall i, 0 <= i < Z.of_nat c -> T (p + i).

Lemma cells_0 T p c : cells_in T p (1 + c) -> T p.
Proof. intros H. specialize (H 0). rewrite Z.add_0_r in H. apply H. lia. Qed.
Lemma cells_step T p c : cells_in T p (1 + c) -> cells_in T (p + 1) c.
Proof. intros H i Hi. rewrite <- Z.add_assoc. apply H. lia. Qed.

Lemma confined_loop {A X} (J : (Z -> Prop) -> (Z -> Prop) -> mem A -> nat -> X -> X -> Prop) body (v : nat) cnt (st : mem A -> X) (proj : X -> mem A)
    (call : mem A -> res (mem A)) (R W : Z -> Prop) :
  1 <= cnt < 2 ^ 32 ->
  (forall m, call m = rmap proj (do_while body cnt (st m))) ->
  (forall (S : Z -> Prop) m0 c x y, (forall a, W a -> S a) -> J S W m0 (v + c)%nat x y -> rr (J S W m0 c) (body x) (body y)) ->
  (forall S m0 x y, J S W m0 O x y -> inv S W m0 (proj x) (proj y)) ->
  (forall (S : Z -> Prop) m0 m1 m2, (forall a, R a -> S a) -> (forall a, W a -> S a) -> inv S W m0 m1 m2 -> J S W m0 (Z.to_nat cnt * v)%nat (st m1) (st m2)) ->
  confined call R W.
Proof.
  intros Hn Hc Hb He Hs. apply confined_of. intros m1 m2 H. rewrite !Hc, !do_while_iter by (unfold two32; lia).
  assert (G : rr (J (fun a => R a \/ W a) W m1 O) (iter_res (Z.to_nat cnt) body (st m1)) (iter_res (Z.to_nat cnt) body (st m2))).
  { apply rr_down with (v := v).
    - intros c x y. apply Hb. auto.
    - apply Hs; auto. split; intros a Ha; [apply H, Ha|reflexivity]. }
  destruct (iter_res (Z.to_nat cnt) body (st m1)), (iter_res (Z.to_nat cnt) body (st m2)); cbn [rr rmap] in *; auto.
Qed.

Section Elements.
Context {A : Type} (ar : arith A).

Lemma setvec_confined (dest : Z) (f : A) n : 0 < n < 2 ^ 32 ->
  confined (fun m => setvec m dest f n) (fun _ => False) (range dest n).
Proof.
  intros Hn.
  apply (confined_loop (fun S W m0 c (x y : mem A * Z) => inv S W m0 (fst x) (fst y) /\ snd x = snd y /\ cells_in W (snd x) c)
    (fun s => let '(m, dest) := s in m' <- store m dest f ;; Ok (m', dest + 1)) 1 n (fun m => (m, dest)) fst); [lia| | | |].
  - intro m. unfold setvec. destruct (do_while _ _ _) as [[? ?]|]; reflexivity.
  - intros S m0 c [x1 p] [x2 ?] HS (HI & E & H). cbn [fst snd] in *. subst. apply (rr_bind (inv S (range dest n) m0)).
    + apply rr_store; auto. eapply cells_0, H.
    + intros y1 y2 HI'. cbn [rr fst snd]. repeat (split; [first [exact HI' | reflexivity | apply cells_step; assumption]|]). apply cells_step; assumption.
  - intros S m0 x y H. apply H.
  - intros S m0 m1 m2 _ _ HI. cbn [fst snd]. repeat (split; [first [exact HI | reflexivity]|]). intros i Hi. unfold range. lia.
Qed.

Lemma set_slope_confined (dest : Z) (f slope : A) n : 0 < n < 2 ^ 32 ->
  confined (fun m => set_slope_vec ar m dest f slope n) (fun _ => False) (range dest n).
Proof.
  intros Hn.
  apply (confined_loop (fun S W m0 c (x y : mem A * Z * A) => inv S W m0 (fst (fst x)) (fst (fst y)) /\ snd (fst x) = snd (fst y) /\ snd x = snd y /\ cells_in W (snd (fst x)) c)
    (fun s => let '(m, dest, f) := s in m' <- store m dest f ;; Ok (m', dest + 1, a_add ar f slope)) 1 n (fun m => (m, dest, f)) (fun s => fst (fst s))); [lia| | | |].
  - intro m. unfold set_slope_vec. destruct (do_while _ _ _) as [[[? ?] ?]|]; reflexivity.
  - intros S m0 c [[x1 p] u] [[x2 ?] ?] HS (HI & E & E' & H). cbn [fst snd] in *. subst. apply (rr_bind (inv S (range dest n) m0)).
    + apply rr_store; auto. eapply cells_0, H.
    + intros y1 y2 HI'. cbn [rr fst snd]. repeat (split; [first [exact HI' | reflexivity | apply cells_step; assumption]|]). apply cells_step; assumption.
  - intros S m0 x y H. apply H.
  - intros S m0 m1 m2 _ _ HI. cbn [fst snd]. repeat (split; [first [exact HI | reflexivity]|]). intros i Hi. unfold range. lia.
Qed.

Lemma set_exp_confined (dest : Z) (f curve : A) n : 0 < n < 2 ^ 32 ->
  confined (fun m => set_exp_vec ar m dest f curve n) (fun _ => False) (range dest n).
Proof.
  intros Hn.
  apply (confined_loop (fun S W m0 c (x y : mem A * Z * A) => inv S W m0 (fst (fst x)) (fst (fst y)) /\ snd (fst x) = snd (fst y) /\ snd x = snd y /\ cells_in W (snd (fst x)) c)
    (fun s => let '(m, dest, f) := s in m' <- store m dest f ;; Ok (m', dest + 1, a_mul ar f curve)) 1 n (fun m => (m, dest, f)) (fun s => fst (fst s))); [lia| | | |].
  - intro m. unfold set_exp_vec. destruct (do_while _ _ _) as [[[? ?] ?]|]; reflexivity.
  - intros S m0 c [[x1 p] u] [[x2 ?] ?] HS (HI & E & E' & H). cbn [fst snd] in *. subst. apply (rr_bind (inv S (range dest n) m0)).
    + apply rr_store; auto. eapply cells_0, H.
    + intros y1 y2 HI'. cbn [rr fst snd]. repeat (split; [first [exact HI' | reflexivity | apply cells_step; assumption]|]). apply cells_step; assumption.
  - intros S m0 x y H. apply H.
  - intros S m0 m1 m2 _ _ HI. cbn [fst snd]. repeat (split; [first [exact HI | reflexivity]|]). intros i Hi. unfold range. lia.
Qed.

Lemma zerovec_confined (dest : Z) n : 0 <= n ->
  confined (fun m => zerovec ar m dest n) (fun _ => False) (range dest n).
Proof.
  intros Hn. apply confined_of. intros m1 m2 H. unfold zerovec. apply rr_store_list; auto.
  - split; intros a Ha; [apply H, Ha|reflexivity].
  - intros i Hi. rewrite repeat_length in Hi. unfold range. lia.
Qed.

Lemma copyvec_confined (dest src : Z) n : 0 <= n ->
  confined (fun m : mem A => copyvec m dest src n) (range src n) (range dest n).
Proof.
  intros Hn. apply confined_of. intros m1 m2 H. unfold copyvec. destruct (_ && _)%bool; [reflexivity|].
  assert (HI : inv (fun a => range src n a \/ range dest n a) (range dest n) m1 m1 m2) by (split; intros a Ha; [apply H, Ha|reflexivity]).
  assert (G : rr eq (load_n (Z.to_nat n) m1 src) (load_n (Z.to_nat n) m2 src)).
  { eapply rr_load_n; [exact HI|]. intros i Hi. left. unfold range. lia. }
  destruct (load_n (Z.to_nat n) m1 src) as [l|] eqn:E, (load_n (Z.to_nat n) m2 src); cbn [rr bind] in *; subst; auto; try contradiction.
  apply rr_store_list; auto. intros i Hi. rewrite (load_n_length _ _ _ _ E) in Hi. unfold range. lia.
Qed.

Lemma addvec_confined (out inp : Z) n : 0 < n < 2 ^ 32 ->
  confined (fun m => addvec ar m out inp n) (range inp n) (range out n).
Proof.
  intros Hn.
  apply (confined_loop (fun S W m0 c (x y : mem A * Z * Z) => inv S W m0 (fst (fst x)) (fst (fst y)) /\ snd (fst x) = snd (fst y) /\ snd x = snd y /\ cells_in W (snd (fst x)) c /\ cells_in S (snd x) c)
    (fun s => let '(m, out, inp) := s in x <- load m out ;; y <- load m inp ;; m' <- store m out (a_add ar x y) ;; Ok (m', out + 1, inp + 1)) 1 n
    (fun m => (m, out, inp)) (fun s => fst (fst s))); [lia| | | |].
  - intro m. unfold addvec. destruct (do_while _ _ _) as [[[? ?] ?]|]; reflexivity.
  - intros S m0 c [[x1 p] u] [[x2 ?] ?] HS (HI & E & E' & H & H'). cbn [fst snd] in *. subst.
    apply (rr_bind eq). { eapply rr_load; [exact HI|]. eapply HS, cells_0, H. } intros v ? <-.
    apply (rr_bind eq). { eapply rr_load; [exact HI|]. eapply cells_0, H'. } intros w ? <-.
    apply (rr_bind (inv S (range out n) m0)).
    + apply rr_store; auto. eapply cells_0, H.
    + intros y1 y2 HI'. cbn [rr fst snd]. repeat (split; [first [exact HI' | reflexivity | apply cells_step; assumption]|]). apply cells_step; assumption.
  - intros S m0 x y H. apply H.
  - intros S m0 m1 m2 HR _ HI. cbn [fst snd]. repeat (split; [first [exact HI | reflexivity | intros i Hi; unfold range; lia]|]). intros i Hi. apply HR. unfold range. lia.
Qed.

Lemma addvec_scalar_confined (out : Z) (f : A) n : 0 < n < 2 ^ 32 ->
  confined (fun m => addvec_scalar ar m out f n) (fun _ => False) (range out n).
Proof.
  intros Hn.
  apply (confined_loop (fun S W m0 c (x y : mem A * Z) => inv S W m0 (fst x) (fst y) /\ snd x = snd y /\ cells_in W (snd x) c)
    (fun s => let '(m, out) := s in x <- load m out ;; m' <- store m out (a_add ar x f) ;; Ok (m', out + 1)) 1 n (fun m => (m, out)) fst); [lia| | | |].
  - intro m. unfold addvec_scalar. destruct (do_while _ _ _) as [[? ?]|]; reflexivity.
  - intros S m0 c [x1 p] [x2 ?] HS (HI & E & H). cbn [fst snd] in *. subst.
    apply (rr_bind eq). { eapply rr_load; [exact HI|]. eapply HS, cells_0, H. } intros v ? <-.
    apply (rr_bind (inv S (range out n) m0)).
    + apply rr_store; auto. eapply cells_0, H.
    + intros y1 y2 HI'. cbn [rr fst snd]. repeat (split; [first [exact HI' | reflexivity | apply cells_step; assumption]|]). apply cells_step; assumption.
  - intros S m0 x y H. apply H.
  - intros S m0 m1 m2 _ _ HI. cbn [fst snd]. repeat (split; [first [exact HI | reflexivity]|]). intros i Hi. unfold range. lia.
Qed.

Lemma pan2_slope_confined (out0 out1 inp : Z) (f0 s0 f1 s1 : A) n : 0 < n < 2 ^ 32 ->
  confined (fun m => pan2_slope_vec ar m out0 out1 inp f0 s0 f1 s1 n) (range inp n) (fun a => range out0 n a \/ range out1 n a).
Proof.
  intros Hn.
  apply (confined_loop (fun S W m0 c (x y : mem A * Z * Z * Z * A * A) =>
      inv S W m0 (fst (fst (fst (fst (fst x))))) (fst (fst (fst (fst (fst y))))) /\ snd (fst (fst (fst (fst x)))) = snd (fst (fst (fst (fst y)))) /\
      snd (fst (fst (fst x))) = snd (fst (fst (fst y))) /\ snd (fst (fst x)) = snd (fst (fst y)) /\ snd (fst x) = snd (fst y) /\ snd x = snd y /\
      cells_in W (snd (fst (fst (fst (fst x))))) c /\ cells_in W (snd (fst (fst (fst x)))) c /\ cells_in S (snd (fst (fst x))) c)
    (fun s => let '(m, out0, out1, inp, f0, f1) := s in sig <- load m inp ;; m <- store m out0 (a_mul ar sig f0) ;; m <- store m out1 (a_mul ar sig f1) ;;
       Ok (m, out0 + 1, out1 + 1, inp + 1, a_add ar f0 s0, a_add ar f1 s1)) 1 n
    (fun m => (m, out0, out1, inp, f0, f1)) (fun s => fst (fst (fst (fst (fst s)))))); [lia| | | |].
  - intro m. unfold pan2_slope_vec. destruct (do_while _ _ _) as [[[[[[? ?] ?] ?] ?] ?]|]; reflexivity.
  - intros S m0 c [[[[[x1 p] q] r] u] v] [[[[[x2 ?] ?] ?] ?] ?] HS (HI & E1 & E2 & E3 & E4 & E5 & H1 & H2 & H3). cbn [fst snd] in *. subst.
    apply (rr_bind eq). { eapply rr_load; [exact HI|]. eapply cells_0, H3. } intros w ? <-.
    apply (rr_bind (inv S (fun a => range out0 n a \/ range out1 n a) m0)). { apply rr_store; auto. eapply (cells_0 _ _ _ H1). }
    intros y1 y2 HI1. apply (rr_bind (inv S (fun a => range out0 n a \/ range out1 n a) m0)). { apply rr_store; auto. eapply (cells_0 _ _ _ H2). }
    intros b1 b2 HI2. cbn [rr fst snd]. repeat (split; [first [exact HI2 | reflexivity | apply cells_step; assumption]|]). apply cells_step, H3.
  - intros S m0 x y H. apply H.
  - intros S m0 m1 m2 HR _ HI. cbn [fst snd]. repeat (split; [first [exact HI | reflexivity | intros i Hi; unfold range; lia]|]). intros i Hi. apply HR. unfold range. lia.
Qed.

Lemma pan2_confined (out0 out1 inp : Z) (f0 f1 : A) n : 0 < n < 2 ^ 32 ->
  confined (fun m => pan2_vec ar m out0 out1 inp f0 f1 n) (range inp n) (fun a => range out0 n a \/ range out1 n a).
Proof.
  intros Hn.
  apply (confined_loop (fun S W m0 c (x y : mem A * Z * Z * Z) =>
      inv S W m0 (fst (fst (fst x))) (fst (fst (fst y))) /\ 
      snd (fst (fst x)) = snd (fst (fst y)) /\ snd (fst x) = snd (fst y) /\ snd x = snd y /\
      cells_in W (snd (fst (fst x))) c /\ cells_in W (snd (fst x)) c /\ cells_in S (snd x) c)
    (fun s => let '(m, out0, out1, inp) := s in sig <- load m inp ;; m <- store m out0 (a_mul ar sig f0) ;; m <- store m out1 (a_mul ar sig f1) ;;
       Ok (m, out0 + 1, out1 + 1, inp + 1)) 1 n
    (fun m => (m, out0, out1, inp)) (fun s => fst (fst (fst s)))); [lia| | | |].
  - intro m. unfold pan2_vec. destruct (do_while _ _ _) as [[[[? ?] ?] ?]|]; reflexivity.
  - intros S m0 c [[[x1 p] q] r] [[[x2 ?] ?] ?] HS (HI & E1 & E2 & E3 & H1 & H2 & H3). cbn [fst snd] in *. subst.
    apply (rr_bind eq). { eapply rr_load; [exact HI|]. eapply cells_0, H3. } intros w ? <-.
    apply (rr_bind (inv S (fun a => range out0 n a \/ range out1 n a) m0)). { apply rr_store; auto. eapply (cells_0 _ _ _ H1). }
    intros y1 y2 HI1. apply (rr_bind (inv S (fun a => range out0 n a \/ range out1 n a) m0)). { apply rr_store; auto. eapply (cells_0 _ _ _ H2). }
    intros b1 b2 HI2. cbn [rr fst snd]. repeat (split; [first [exact HI2 | reflexivity | apply cells_step; assumption]|]). apply cells_step, H3.
  - intros S m0 x y H. apply H.
  - intros S m0 m1 m2 HR _ HI. cbn [fst snd]. repeat (split; [first [exact HI | reflexivity | intros i Hi; unfold range; lia]|]). intros i Hi. apply HR. unfold range. lia.
Qed.
End Elements.

(** The same with vectors. *)
Lemma confined_count {A X} (J : (Z -> Prop) -> (Z -> Prop) -> mem A -> nat -> X -> X -> Prop) body B n (st : mem A -> X) (proj : X -> mem A)
    (call : mem A -> res (mem A)) (R W : Z -> Prop) :
  loop_unit B <= n < 2 ^ 32 ->
  (forall m, call m = rmap proj (do_while body (n / samples_per_loop B) (st m))) ->
  (forall (S : Z -> Prop) m0 c x y, (forall a, W a -> S a) -> J S W m0 (vecs_per_loop B + c)%nat x y -> rr (J S W m0 c) (body x) (body y)) ->
  (forall S m0 x y, J S W m0 O x y -> inv S W m0 (proj x) (proj y)) ->
  (forall (S : Z -> Prop) m0 m1 m2 c, (forall a, R a -> S a) -> (forall a, W a -> S a) -> inv S W m0 m1 m2 -> Z.of_nat c * Z.of_nat (vsize B) <= n ->
     J S W m0 c (st m1) (st m2)) ->
  confined call R W.
Proof.
  intros Hn Hc Hb He Hs. apply (confined_loop J body (vecs_per_loop B) (n / samples_per_loop B) st proj); auto.
  - apply (count_ok B n). unfold two32. lia.
  - intros S m0 m1 m2 H1 H2 H3. apply Hs; auto.
    destruct (vecs_per_loop_spec B) as [HV HP]. pose proof (loop_unit_pos B) as HU.
    rewrite Nat2Z.inj_mul, <- Z.mul_assoc, HV, loop_unit_spec, Z2Nat.id by (apply Z.div_pos; lia).
    rewrite Z.mul_comm. apply Z.mul_div_le. lia.
Qed.

Section Vectors.
Context {A : Type} (ar : arith A) (B : backend).
Local Notation vec := (list A).
Local Notation step := (Z.of_nat (vsize B)).

Lemma vecs_steps T p k c : vecs_in B T p (k + c) -> vecs_in B T (p + Z.of_nat k * step) c.
Proof.
  intros [H1 H2]. split; [apply in_place_step, H1|]. intros i Hi. rewrite <- Z.add_assoc. apply H2. nia.
Qed.
Lemma vecs_loop T p c : vecs_in B T p (vecs_per_loop B + c) -> vecs_in B T (p + samples_per_loop B) c.
Proof. intros H. destruct (vecs_per_loop_spec B) as [HV HP]. rewrite loop_unit_spec, <- HV. apply vecs_steps, H. Qed.
Lemma vecs_range p n c : in_place B p -> Z.of_nat c * step <= n -> vecs_in B (range p n) p c.
Proof. intros H1 H2. split; [exact H1|]. intros i Hi. unfold range. lia. Qed.
Lemma vecs_impl (T T' : Z -> Prop) p c : (forall a, T a -> T' a) -> vecs_in B T p c -> vecs_in B T' p c.
Proof. intros H [H1 H2]. split; auto. Qed.

Context (S W : Z -> Prop) (HWS : forall a, W a -> S a).

Lemma rr_store_al al (m0 m1 m2 : mem A) p c v : inv S W m0 m1 m2 -> vecs_in B W p (1 + c) -> length v = vsize B ->
  rr (inv S W m0) (store_al B al m1 p v) (store_al B al m2 p v).
Proof. intros HI H Hv. unfold store_al. destruct al; eapply rr_vstore; eassumption. Qed.

Lemma rr_load_al al (m0 m1 m2 : mem A) p c : inv S W m0 m1 m2 -> vecs_in B S p (1 + c) ->
  rr (fun u v => u = v /\ length u = vsize B) (load_al B al m1 p) (load_al B al m2 p).
Proof. intros HI H. unfold load_al. destruct al; eapply rr_vload; eassumption. Qed.

Lemma rr_setvec_mp al v c m0 : length v = vsize B -> forall k (m1 m2 : mem A) p, inv S W m0 m1 m2 -> vecs_in B W p (k + c) ->
  rr (inv S W m0) (setvec_mp B al k m1 p v) (setvec_mp B al k m2 p v).
Proof.
  intros Hv. induction k as [|k IH]; intros m1 m2 p HI H; cbn [setvec_mp]; [exact HI|].
  apply (rr_bind (inv S W m0)); [apply (rr_store_al _ _ _ _ _ (k + c)); auto|]. intros y1 y2 HI'. apply IH; [exact HI'|]. apply (vecs_step B W p (k + c) H).
Qed.

Lemma vadd_len (u v : vec) : length u = vsize B -> length v = vsize B -> length (vadd ar u v) = vsize B.
Proof. intros H1 H2. unfold vadd. rewrite map2_length; congruence. Qed.
Lemma vmul_len (u v : vec) : length u = vsize B -> length v = vsize B -> length (vmul ar u v) = vsize B.
Proof. intros H1 H2. unfold vmul. rewrite map2_length; congruence. Qed.
Lemma set_vec_len (x : A) : length (set_vec B x) = vsize B.
Proof. apply repeat_length. Qed.

Lemma rr_slope_mp s c m0 : length s = vsize B -> forall k (m1 m2 : mem A) p v, length v = vsize B -> inv S W m0 m1 m2 -> vecs_in B W p (k + c) ->
  rr (fun x y => inv S W m0 (fst x) (fst y) /\ snd x = snd y /\ length (snd x) = vsize B) (slope_mp ar B k m1 p v s) (slope_mp ar B k m2 p v s).
Proof.
  intros Hs. induction k as [|k IH]; intros m1 m2 p v Hv HI H; cbn [slope_mp]; [cbn [rr fst snd]; auto|].
  apply (rr_bind (inv S W m0)); [eapply rr_vstore; [exact HWS|exact HI|exact H|exact Hv]|].
  intros y1 y2 HI'. apply IH; auto using vadd_len. apply (vecs_step B W p (k + c) H).
Qed.

Lemma rr_exp_mp s c m0 : length s = vsize B -> forall k (m1 m2 : mem A) p v, length v = vsize B -> inv S W m0 m1 m2 -> vecs_in B W p (k + c) ->
  rr (fun x y => inv S W m0 (fst x) (fst y) /\ snd x = snd y /\ length (snd x) = vsize B) (exp_mp ar B k m1 p v s) (exp_mp ar B k m2 p v s).
Proof.
  intros Hs. induction k as [|k IH]; intros m1 m2 p v Hv HI H; cbn [exp_mp]; [cbn [rr fst snd]; auto|].
  apply (rr_bind (inv S W m0)); [eapply rr_vstore; [exact HWS|exact HI|exact H|exact Hv]|].
  intros y1 y2 HI'. apply IH; auto using vmul_len. apply (vecs_step B W p (k + c) H).
Qed.

Lemma rr_addvec_mp c m0 : forall k (m1 m2 : mem A) p q, inv S W m0 m1 m2 -> vecs_in B W p (k + c) -> vecs_in B S q (k + c) ->
  rr (inv S W m0) (addvec_mp ar B k m1 p q) (addvec_mp ar B k m2 p q).
Proof.
  induction k as [|k IH]; intros m1 m2 p q HI H1 H2; cbn [addvec_mp]; [exact HI|].
  pose proof (vecs_impl W S p _ HWS H1) as H1'.
  apply (rr_bind _ _ _ _ _ _ (proj1 (rr_vload B S W m0 m1 m2 p (k + c) HI H1'))). intros u ? [<- Hu].
  apply (rr_bind _ _ _ _ _ _ (proj1 (rr_vload B S W m0 m1 m2 q (k + c) HI H2))). intros v ? [<- Hv].
  apply (rr_bind (inv S W m0)); [eapply rr_vstore; [exact HWS|exact HI|exact H1|auto using vadd_len]|].
  intros y1 y2 HI'. apply IH; [exact HI'|apply (vecs_step B W p (k + c) H1)|apply (vecs_step B S q (k + c) H2)].
Qed.

Lemma rr_addvec_scalar_mp c m0 v : length v = vsize B -> forall k (m1 m2 : mem A) p, inv S W m0 m1 m2 -> vecs_in B W p (k + c) ->
  rr (inv S W m0) (addvec_scalar_mp ar B k m1 p v) (addvec_scalar_mp ar B k m2 p v).
Proof.
  intros Hv. induction k as [|k IH]; intros m1 m2 p HI H1; cbn [addvec_scalar_mp]; [exact HI|].
  pose proof (vecs_impl W S p _ HWS H1) as H1'.
  apply (rr_bind _ _ _ _ _ _ (proj1 (rr_vload B S W m0 m1 m2 p (k + c) HI H1'))). intros u ? [<- Hu].
  apply (rr_bind (inv S W m0)); [eapply rr_vstore; [exact HWS|exact HI|exact H1|auto using vadd_len]|].
  intros y1 y2 HI'. apply IH; [exact HI'|apply (vecs_step B W p (k + c) H1)].
Qed.

Lemma rr_copy_mp sa da c m0 : forall k (m1 m2 : mem A) p q v, length v = vsize B -> inv S W m0 m1 m2 -> vecs_in B W p (k + c) -> vecs_in B S q (k + c) ->
  rr (inv S W m0) (copy_mp B sa da k m1 p q v) (copy_mp B sa da k m2 p q v).
Proof.
  induction k as [|k IH]; intros m1 m2 p q v Hv HI H1 H2; cbn [copy_mp]; [exact HI|].
  apply (rr_bind _ _ _ _ _ _ (rr_load_al sa m0 m1 m2 q (k + c) HI H2)). intros u ? [<- Hu].
  apply (rr_bind (inv S W m0)); [apply (rr_store_al _ _ _ _ _ (k + c)); auto|].
  intros y1 y2 HI'. apply IH; auto; [apply (vecs_step B W p (k + c) H1)|apply (vecs_step B S q (k + c) H2)].
Qed.

Lemma rr_copy_run sa da c m0 k (m1 m2 : mem A) p q : inv S W m0 m1 m2 -> vecs_in B W p (k + c) -> vecs_in B S q (1 + (k + c)) ->
  rr (inv S W m0) (copy_run B sa da k m1 p q) (copy_run B sa da k m2 p q).
Proof.
  intros HI H1 H2. unfold copy_run.
  apply (rr_bind _ _ _ _ _ _ (rr_load_al sa m0 m1 m2 q (k + c) HI H2)). intros u ? [<- Hu].
  apply (rr_copy_mp _ _ c); auto. apply (vecs_step B S q (k + c) H2).
Qed.

Lemma rr_pan2_mp c m0 f0 f1 : length f0 = vsize B -> length f1 = vsize B ->
  forall k (m1 m2 : mem A) p0 p1 q, inv S W m0 m1 m2 -> vecs_in B W p0 (k + c) -> vecs_in B W p1 (k + c) -> vecs_in B S q (k + c) ->
  rr (inv S W m0) (pan2_mp ar B k m1 p0 p1 q f0 f1) (pan2_mp ar B k m2 p0 p1 q f0 f1).
Proof.
  intros L0 L1. induction k as [|k IH]; intros m1 m2 p0 p1 q HI H0 H1 H2; cbn [pan2_mp]; [exact HI|].
  apply (rr_bind _ _ _ _ _ _ (proj1 (rr_vload B S W m0 m1 m2 q (k + c) HI H2))). intros u ? [<- Hu].
  apply (rr_bind (inv S W m0)); [eapply rr_vstore; [exact HWS|exact HI|exact H0|auto using vmul_len]|]. intros y1 y2 HI'.
  apply (rr_bind (inv S W m0)); [eapply rr_vstore; [exact HWS|exact HI'|exact H1|auto using vmul_len]|]. intros b1 b2 HI''.
  apply IH; [exact HI''|apply (vecs_step B W p0 (k + c) H0)|apply (vecs_step B W p1 (k + c) H1)|apply (vecs_step B S q (k + c) H2)].
Qed.

Lemma rr_pan2_slope_mp c m0 s0 s1 : length s0 = vsize B -> length s1 = vsize B ->
  forall k (m1 m2 : mem A) p0 p1 q f0 f1, length f0 = vsize B -> length f1 = vsize B ->
  inv S W m0 m1 m2 -> vecs_in B W p0 (k + c) -> vecs_in B W p1 (k + c) -> vecs_in B S q (k + c) ->
  rr (fun x y => inv S W m0 (fst (fst x)) (fst (fst y)) /\ snd (fst x) = snd (fst y) /\ snd x = snd y /\ length (snd (fst x)) = vsize B /\ length (snd x) = vsize B)
     (pan2_slope_mp ar B k m1 p0 p1 q f0 s0 f1 s1) (pan2_slope_mp ar B k m2 p0 p1 q f0 s0 f1 s1).
Proof.
  intros K0 K1. induction k as [|k IH]; intros m1 m2 p0 p1 q f0 f1 L0 L1 HI H0 H1 H2; cbn [pan2_slope_mp].
  { cbn [rr fst snd]. repeat (split; [first [exact HI|reflexivity|assumption]|]). assumption. }
  apply (rr_bind _ _ _ _ _ _ (proj1 (rr_vload B S W m0 m1 m2 q (k + c) HI H2))). intros u ? [<- Hu].
  apply (rr_bind (inv S W m0)); [eapply rr_vstore; [exact HWS|exact HI|exact H0|auto using vmul_len]|]. intros y1 y2 HI'.
  apply (rr_bind (inv S W m0)); [eapply rr_vstore; [exact HWS|exact HI'|exact H1|auto using vmul_len]|]. intros b1 b2 HI''.
  apply IH; auto using vadd_len; [apply (vecs_step B W p0 (k + c) H0)|apply (vecs_step B W p1 (k + c) H1)|apply (vecs_step B S q (k + c) H2)].
Qed.
End Vectors.

Ltac parts HI := repeat (split; [first [exact HI | reflexivity | assumption | apply vecs_loop; assumption]|]).

Section VectorFuns.
Context {A : Type} (ar : arith A) (B : backend).
Local Notation vec := (list A).
Local Notation step := (Z.of_nat (vsize B)).

Lemma detail_setvec_confined al (dest : Z) v n : length v = vsize B -> in_place B dest -> loop_unit B <= n < 2 ^ 32 ->
  confined (fun m : mem A => detail_setvec_simd B al m dest v n) (fun _ => False) (range dest n).
Proof.
  intros Hv Hd Hn.
  apply (confined_count (fun S W m0 c (x y : mem A * Z) => inv S W m0 (fst x) (fst y) /\ snd x = snd y /\ vecs_in B W (snd x) c)
    (fun s => let '(m, dest) := s in m <- setvec_mp B al (vecs_per_loop B) m dest v ;; Ok (m, dest + samples_per_loop B)) B n (fun m => (m, dest)) fst); [lia| | | |].
  - intro m. unfold detail_setvec_simd. destruct (do_while _ _ _) as [[? ?]|]; reflexivity.
  - intros S m0 c [x1 p] [x2 ?] HS (HI & E & H). cbn [fst snd] in *. subst. apply (rr_bind (inv S (range dest n) m0)).
    + apply (rr_setvec_mp B S _ HS _ _ c); auto.
    + intros y1 y2 HI'. cbn [rr fst snd]. parts HI'. apply vecs_loop, H.
  - intros S m0 x y H. apply H.
  - intros S m0 m1 m2 c _ _ HI Hc. cbn [fst snd]. parts HI. apply vecs_range; assumption.
Qed.

Lemma set_slope_simd_confined (dest : Z) (f slope : A) n : in_place B dest -> loop_unit B <= n < 2 ^ 32 ->
  confined (fun m => set_slope_vec_simd ar B m dest f slope n) (fun _ => False) (range dest n).
Proof.
  intros Hd Hn. unfold set_slope_vec_simd. set (vs := set_vec B (a_mul ar _ slope)). pose proof (set_slope_length ar B f slope) as L0.
  assert (Ls : length vs = vsize B) by apply set_vec_len. clearbody vs. revert L0. generalize (fst (set_slope ar B f slope)). intros vb L0.
  apply (confined_count (fun S W m0 c (x y : mem A * Z * vec) => inv S W m0 (fst (fst x)) (fst (fst y)) /\ snd (fst x) = snd (fst y) /\ snd x = snd y /\
      vecs_in B W (snd (fst x)) c /\ length (snd x) = vsize B)
    (fun s => let '(m, dest, vbase) := s in '(m, vbase) <- slope_mp ar B (vecs_per_loop B) m dest vbase vs ;; Ok (m, dest + samples_per_loop B, vbase)) B n
    (fun m => (m, dest, vb)) (fun s => fst (fst s))); [lia| | | |].
  - intro m. destruct (do_while _ _ _) as [[[? ?] ?]|]; reflexivity.
  - intros S m0 c [[x1 p] u] [[x2 ?] ?] HS (HI & E & E' & H & HL). cbn [fst snd] in *. subst.
    apply (rr_bind _ _ _ _ _ _ (rr_slope_mp ar B S _ HS vs c m0 Ls (vecs_per_loop B) x1 x2 _ _ HL HI H)).
    intros [y1 u1] [y2 u2] (HI' & E & HL'). cbn [fst snd] in *. subst. cbn [rr fst snd]. parts HI'. assumption.
  - intros S m0 x y H. apply H.
  - intros S m0 m1 m2 c _ _ HI Hc. cbn [fst snd]. parts HI. split; [apply vecs_range; assumption|assumption].
Qed.

Lemma set_exp_simd_confined (dest : Z) (f curve : A) n : in_place B dest -> loop_unit B <= n < 2 ^ 32 ->
  confined (fun m => set_exp_vec_simd ar B m dest f curve n) (fun _ => False) (range dest n).
Proof.
  intros Hd Hn. unfold set_exp_vec_simd. set (vs := set_vec B _).
  assert (L0 : length (fst (set_exp ar B f curve)) = vsize B).
  { unfold set_exp. destruct B; cbn; reflexivity. }
  assert (Ls : length vs = vsize B) by apply set_vec_len. clearbody vs. revert L0. generalize (fst (set_exp ar B f curve)). intros vb L0.
  apply (confined_count (fun S W m0 c (x y : mem A * Z * vec) => inv S W m0 (fst (fst x)) (fst (fst y)) /\ snd (fst x) = snd (fst y) /\ snd x = snd y /\
      vecs_in B W (snd (fst x)) c /\ length (snd x) = vsize B)
    (fun s => let '(m, dest, vbase) := s in '(m, vbase) <- exp_mp ar B (vecs_per_loop B) m dest vbase vs ;; Ok (m, dest + samples_per_loop B, vbase)) B n
    (fun m => (m, dest, vb)) (fun s => fst (fst s))); [lia| | | |].
  - intro m. destruct (do_while _ _ _) as [[[? ?] ?]|]; reflexivity.
  - intros S m0 c [[x1 p] u] [[x2 ?] ?] HS (HI & E & E' & H & HL). cbn [fst snd] in *. subst.
    apply (rr_bind _ _ _ _ _ _ (rr_exp_mp ar B S _ HS vs c m0 Ls (vecs_per_loop B) x1 x2 _ _ HL HI H)).
    intros [y1 u1] [y2 u2] (HI' & E & HL'). cbn [fst snd] in *. subst. cbn [rr fst snd]. parts HI'. assumption.
  - intros S m0 x y H. apply H.
  - intros S m0 m1 m2 c _ _ HI Hc. cbn [fst snd]. parts HI. split; [apply vecs_range; assumption|assumption].
Qed.

Lemma addvec_simd_confined (out inp : Z) n : in_place B out -> in_place B inp -> loop_unit B <= n < 2 ^ 32 ->
  confined (fun m => addvec_simd ar B m out inp n) (range inp n) (range out n).
Proof.
  intros Hd Hp Hn.
  apply (confined_count (fun S W m0 c (x y : mem A * Z * Z) => inv S W m0 (fst (fst x)) (fst (fst y)) /\ snd (fst x) = snd (fst y) /\ snd x = snd y /\
      vecs_in B W (snd (fst x)) c /\ vecs_in B S (snd x) c)
    (fun s => let '(m, out, inp) := s in m <- addvec_mp ar B (vecs_per_loop B) m out inp ;; Ok (m, out + samples_per_loop B, inp + samples_per_loop B)) B n
    (fun m => (m, out, inp)) (fun s => fst (fst s))); [lia| | | |].
  - intro m. unfold addvec_simd. destruct (do_while _ _ _) as [[[? ?] ?]|]; reflexivity.
  - intros S m0 c [[x1 p] u] [[x2 ?] ?] HS (HI & E & E' & H & HL). cbn [fst snd] in *. subst.
    apply (rr_bind _ _ _ _ _ _ (rr_addvec_mp ar B S _ HS c m0 (vecs_per_loop B) x1 x2 _ _ HI H HL)).
    intros y1 y2 HI'. cbn [rr fst snd]. parts HI'. apply vecs_loop; assumption.
  - intros S m0 x y H. apply H.
  - intros S m0 m1 m2 c HR _ HI Hc. cbn [fst snd]. parts HI. split; [apply vecs_range; assumption|].
    apply (vecs_impl B _ _ _ _ HR), vecs_range; assumption.
Qed.

Lemma addvec_scalar_simd_confined (out : Z) (f : A) n : in_place B out -> loop_unit B <= n < 2 ^ 32 ->
  confined (fun m => addvec_scalar_simd ar B m out f n) (fun _ => False) (range out n).
Proof.
  intros Hd Hn.
  apply (confined_count (fun S W m0 c (x y : mem A * Z) => inv S W m0 (fst x) (fst y) /\ snd x = snd y /\ vecs_in B W (snd x) c)
    (fun s => let '(m, out) := s in m <- addvec_scalar_mp ar B (vecs_per_loop B) m out (set_vec B f) ;; Ok (m, out + samples_per_loop B)) B n (fun m => (m, out)) fst); [lia| | | |].
  - intro m. unfold addvec_scalar_simd. destruct (do_while _ _ _) as [[? ?]|]; reflexivity.
  - intros S m0 c [x1 p] [x2 ?] HS (HI & E & H). cbn [fst snd] in *. subst.
    apply (rr_bind _ _ _ _ _ _ (rr_addvec_scalar_mp ar B S _ HS c m0 (set_vec B f) (set_vec_len B f) (vecs_per_loop B) x1 x2 _ HI H)).
    intros y1 y2 HI'. cbn [rr fst snd]. parts HI'. apply vecs_loop, H.
  - intros S m0 x y H. apply H.
  - intros S m0 m1 m2 c _ _ HI Hc. cbn [fst snd]. parts HI. apply vecs_range; assumption.
Qed.

(** Each unrolled body of a copy loads one vector more than it stores. *)
Lemma copyvec_simd_confined sa da (dest src : Z) n : in_place B dest -> in_place B src -> loop_unit B <= n < 2 ^ 32 ->
  confined (fun m : mem A => copyvec_simd_gen B sa da m dest src n) (range src (n + step)) (range dest n).
Proof.
  intros Hd Hp Hn.
  apply (confined_count (fun S W m0 c (x y : mem A * Z * Z) => inv S W m0 (fst (fst x)) (fst (fst y)) /\ snd (fst x) = snd (fst y) /\ snd x = snd y /\
      vecs_in B W (snd (fst x)) c /\ vecs_in B S (snd x) (1 + c))
    (fun s => let '(m, dest, src) := s in m <- copy_run B sa da (vecs_per_loop B) m dest src ;; Ok (m, dest + samples_per_loop B, src + samples_per_loop B)) B n
    (fun m => (m, dest, src)) (fun s => fst (fst s))); [lia| | | |].
  - intro m. unfold copyvec_simd_gen. destruct (do_while _ _ _) as [[[? ?] ?]|]; reflexivity.
  - intros S m0 c [[x1 p] u] [[x2 ?] ?] HS (HI & E & E' & H & HL). cbn [fst snd] in *. subst.
    apply (rr_bind _ _ _ _ _ _ (rr_copy_run B S _ HS sa da c m0 (vecs_per_loop B) x1 x2 _ _ HI H HL)).
    intros y1 y2 HI'. cbn [rr fst snd]. parts HI'. apply vecs_loop. replace (vecs_per_loop B + (1 + c))%nat with (1 + (vecs_per_loop B + c))%nat by lia. assumption.
  - intros S m0 x y H. apply H.
  - intros S m0 m1 m2 c HR _ HI Hc. cbn [fst snd]. parts HI. split; [apply vecs_range; assumption|].
    apply (vecs_impl B _ _ _ _ HR), vecs_range; [assumption|lia].
Qed.

Lemma pan2_simd_confined (out0 out1 inp : Z) (f0 f1 : A) n : in_place B out0 -> in_place B out1 -> in_place B inp -> loop_unit B <= n < 2 ^ 32 ->
  confined (fun m => pan2_vec_simd ar B m out0 out1 inp f0 f1 n) (range inp n) (fun a => range out0 n a \/ range out1 n a).
Proof.
  intros H0 H1 Hp Hn.
  apply (confined_count (fun S W m0 c (x y : mem A * Z * Z * Z) =>
      inv S W m0 (fst (fst (fst x))) (fst (fst (fst y))) /\ 
      snd (fst (fst x)) = snd (fst (fst y)) /\ snd (fst x) = snd (fst y) /\ snd x = snd y /\
      vecs_in B W (snd (fst (fst x))) c /\ vecs_in B W (snd (fst x)) c /\ vecs_in B S (snd x) c)
    (fun s => let '(m, out0, out1, inp) := s in m <- pan2_mp ar B (vecs_per_loop B) m out0 out1 inp (set_vec B f0) (set_vec B f1) ;;
       Ok (m, out0 + samples_per_loop B, out1 + samples_per_loop B, inp + samples_per_loop B)) B n
    (fun m => (m, out0, out1, inp)) (fun s => fst (fst (fst s)))); [lia| | | |].
  - intro m. unfold pan2_vec_simd. destruct (do_while _ _ _) as [[[[? ?] ?] ?]|]; reflexivity.
  - intros S m0 c [[[x1 p] q] r] [[[x2 ?] ?] ?] HS (HI & E1 & E2 & E3 & G1 & G2 & G3). cbn [fst snd] in *. subst.
    apply (rr_bind _ _ _ _ _ _ (rr_pan2_mp ar B S _ HS c m0 (set_vec B f0) (set_vec B f1) (set_vec_len B f0) (set_vec_len B f1) (vecs_per_loop B) x1 x2 _ _ _ HI G1 G2 G3)).
    intros y1 y2 HI'. cbn [rr fst snd]. parts HI'. apply vecs_loop; assumption.
  - intros S m0 x y H. apply H.
  - intros S m0 m1 m2 c HR _ HI Hc. cbn [fst snd]. parts HI.
    split; [apply (vecs_impl B (range out0 n)); [auto|apply vecs_range; assumption]|].
    split; [apply (vecs_impl B (range out1 n)); [auto|apply vecs_range; assumption]|].
    apply (vecs_impl B _ _ _ _ HR), vecs_range; assumption.
Qed.

Lemma pan2_slope_simd_confined (out0 out1 inp : Z) (f0 s0 f1 s1 : A) n : in_place B out0 -> in_place B out1 -> in_place B inp -> loop_unit B <= n < 2 ^ 32 ->
  confined (fun m => pan2_slope_vec_simd ar B m out0 out1 inp f0 s0 f1 s1 n) (range inp n) (fun a => range out0 n a \/ range out1 n a).
Proof.
  intros H0 H1 Hp Hn. unfold pan2_slope_vec_simd.
  pose proof (set_slope_length ar B f0 s0) as L0. pose proof (set_slope_length ar B f1 s1) as L1.
  destruct (set_slope ar B f0 s0) as [vf0 i0]. destruct (set_slope ar B f1 s1) as [vf1 i1]. cbn [fst] in *.
  apply (confined_count (fun S W m0 c (x y : mem A * Z * Z * Z * vec * vec) =>
      inv S W m0 (fst (fst (fst (fst (fst x))))) (fst (fst (fst (fst (fst y))))) /\ snd (fst (fst (fst (fst x)))) = snd (fst (fst (fst (fst y)))) /\
      snd (fst (fst (fst x))) = snd (fst (fst (fst y))) /\ snd (fst (fst x)) = snd (fst (fst y)) /\ snd (fst x) = snd (fst y) /\ snd x = snd y /\
      vecs_in B W (snd (fst (fst (fst (fst x))))) c /\ vecs_in B W (snd (fst (fst (fst x)))) c /\ vecs_in B S (snd (fst (fst x))) c /\
      length (snd (fst x)) = vsize B /\ length (snd x) = vsize B)
    (fun s => let '(m, out0, out1, inp, vf0, vf1) := s in '(m, vf0, vf1) <- pan2_slope_mp ar B (vecs_per_loop B) m out0 out1 inp vf0 (set_vec B i0) vf1 (set_vec B i1) ;;
       Ok (m, out0 + samples_per_loop B, out1 + samples_per_loop B, inp + samples_per_loop B, vf0, vf1)) B n
    (fun m => (m, out0, out1, inp, vf0, vf1)) (fun s => fst (fst (fst (fst (fst s)))))); [lia| | | |].
  - intro m. destruct (do_while _ _ _) as [[[[[[? ?] ?] ?] ?] ?]|]; reflexivity.
  - intros S m0 c [[[[[x1 p] q] r] u] v] [[[[[x2 ?] ?] ?] ?] ?] HS (HI & E1 & E2 & E3 & E4 & E5 & G1 & G2 & G3 & K0 & K1). cbn [fst snd] in *. subst.
    apply (rr_bind _ _ _ _ _ _ (rr_pan2_slope_mp ar B S _ HS c m0 (set_vec B i0) (set_vec B i1) (set_vec_len B i0) (set_vec_len B i1)
       (vecs_per_loop B) x1 x2 _ _ _ _ _ K0 K1 HI G1 G2 G3)).
    intros [[y1 u1] v1] [[y2 u2] v2] (HI' & E & E' & K0' & K1'). cbn [fst snd] in *. subst. cbn [rr fst snd]. parts HI'. assumption.
  - intros S m0 x y H. apply H.
  - intros S m0 m1 m2 c HR _ HI Hc. cbn [fst snd]. parts HI.
    split; [apply (vecs_impl B (range out0 n)); [auto|apply vecs_range; assumption]|].
    split; [apply (vecs_impl B (range out1 n)); [auto|apply vecs_range; assumption]|].
    split; [apply (vecs_impl B _ _ _ _ HR), vecs_range; assumption|]. split; assumption.
Qed.
End VectorFuns.

(** * Any order of independent calls *)
Section Jobs.
Context {A : Type}.

(** Every job stays within its addresses. *)
Definition well_behaved (jobs : list (job A)) : Prop := Forall (fun j : job A => let '(c, R, W) := j in confined c R W) jobs.

Lemma same_effect_sym (r1 r2 : res (mem A)) : same_effect r1 r2 -> same_effect r2 r1.
Proof. destruct r1, r2; cbn; auto. Qed.
Lemma same_effect_trans (r1 r2 r3 : res (mem A)) : same_effect r1 r2 -> same_effect r2 r3 -> same_effect r1 r3.
Proof. destruct r1, r2, r3; cbn; try contradiction; auto. intros H G x. rewrite H. apply G. Qed.

Lemma confined_ext (c : mem A -> res (mem A)) R W m1 m2 : confined c R W -> (forall a, m1 a = m2 a) -> same_effect (c m1) (c m2).
Proof.
  intros [H1 H2] E. specialize (H2 m1 m2 (fun a _ => E a)). pose proof (H1 m1) as F1. pose proof (H1 m2) as F2.
  destruct (c m1) as [x|], (c m2) as [y|]; cbn [agree_on same_effect] in *; auto.
  intros b. destruct (classic (W b)) as [Hw|Hw]; [apply H2, Hw|]. rewrite (F1 x eq_refl b Hw), (F2 y eq_refl b Hw). apply E.
Qed.

Lemma perform_ext jobs : well_behaved jobs -> forall m1 m2, (forall a, m1 a = m2 a) -> same_effect (perform jobs m1) (perform jobs m2).
Proof.
  induction 1 as [|[[c R] W] l Hc _ IH]; intros m1 m2 E; cbn [perform]; [exact E|].
  pose proof (confined_ext c R W m1 m2 Hc E) as G. destruct (c m1), (c m2); cbn [same_effect] in G; cbn [bind]; [apply IH, G|contradiction|contradiction|exact I].
Qed.

Lemma perform_any_order (l l' : list (job A)) : Permutation l l' -> well_behaved l ->
  ForallOrdPairs independent l -> forall m, same_effect (perform l m) (perform l' m).
Proof.
  intros P. assert (SI : forall x y : job A, independent x y -> independent y x).
  { intros [[? ?] ?] [[? ?] ?] [? ?]. split; assumption. }
  induction P as [|j l l' P IH|j1 j2 l|l1 l2 l3 P1 IH1 P2 IH2]; intros HW HP m.
  - cbn. reflexivity.
  - inversion HW; subst. inversion HP; subst. destruct j as [[c R] W]. cbn [perform].
    destruct (c m); cbn [bind]; [auto|exact I].
  - inversion HW as [|? ? W1 HW1]; subst. inversion HW1 as [|? ? W2 HW2]; subst. inversion HP as [|? ? F _]; subst. inversion F as [|? ? I12 _]; subst.
    destruct j1 as [[c1 R1] V1], j2 as [[c2 R2] V2]. destruct I12 as [A1 A2].
    pose proof (commute_of c2 c1 R2 V2 R1 V1 m W1 W2 A1 A2) as C. unfold commute in C. cbn [perform].
    destruct (c2 m) as [x|], (c1 m) as [y|]; cbn [bind] in *.
    + destruct (c1 x), (c2 y); cbn [bind] in *; try contradiction; [apply perform_ext; assumption|exact I].
    + destruct (c1 x); [contradiction|]. exact I.
    + destruct (c2 y); [contradiction|]. exact I.
    + exact I.
  - assert (HW2 : well_behaved l2) by (unfold well_behaved in *; rewrite Forall_forall in *; intros x Hx; apply HW; eapply Permutation_in; [apply Permutation_sym|]; eassumption).
    eapply same_effect_trans; [apply IH1; assumption|]. apply IH2; [assumption|].
    clear - P1 HP SI. induction P1 as [|x k k' P IH|x y k|k1 k2 k3 P1 IH1 P2 IH2]; auto.
    + inversion HP; subst. constructor; auto. rewrite Forall_forall in *. intros z Hz. apply H1. eapply Permutation_in; [apply Permutation_sym|]; eassumption.
    + inversion HP as [|? ? F1 HP1]; subst. inversion HP1 as [|? ? F2 HP2]; subst. inversion F1; subst. constructor; [constructor; auto|]. constructor; auto.
Qed.
End Jobs.
