(** Loop and lane reasoning for the reductions, over an abstract combining
    operation. *)

From Coq Require Import ZArith List Lia Permutation.
From Verif Require Import Base Mem Loop Backend Lanes Reduce Spec SpecReduce LoopFacts MemFacts.
Import ListNotations.
Local Open Scope Z_scope.

Lemma holds_app {A} (m : mem A) p l1 l2 :
  holds m p (l1 ++ l2) <-> holds m p l1 /\ holds m (p + Z.of_nat (length l1)) l2.
Proof.
  split.
  - intros H. split; intros i x Hi.
    + apply H. rewrite nth_error_app1; [assumption|]. apply nth_error_Some. congruence.
    + replace (p + Z.of_nat (length l1) + Z.of_nat i) with (p + Z.of_nat (length l1 + i)) by lia.
      apply H. rewrite nth_error_app2 by lia. replace (length l1 + i - length l1)%nat with i by lia. assumption.
  - intros [H1 H2] i x Hi. destruct (Nat.lt_ge_cases i (length l1)).
    + apply H1. rewrite nth_error_app1 in Hi by assumption. assumption.
    + rewrite nth_error_app2 in Hi by assumption. apply H2 in Hi.
      replace (p + Z.of_nat i) with (p + Z.of_nat (length l1) + Z.of_nat (i - length l1)) by lia. assumption.
Qed.

Lemma holds_cons {A} (m : mem A) p x l : holds m p (x :: l) <-> m p = Some x /\ holds m (p + 1) l.
Proof.
  split.
  - intros H. split.
    + rewrite <- (H O x eq_refl). f_equal. lia.
    + intros i y Hi. rewrite <- (H (S i) y Hi). f_equal. lia.
  - intros [H1 H2] [|i] y Hi.
    + injection Hi as <-. rewrite <- H1. f_equal. lia.
    + rewrite <- (H2 i y Hi). f_equal. lia.
Qed.

Lemma load_n_holds {A} (m : mem A) : forall l p, holds m p l -> load_n (length l) m p = Ok l.
Proof.
  induction l as [|x l IH]; intros p H; [reflexivity|].
  apply holds_cons in H. destruct H as [H1 H2]. cbn [length load_n]. unfold load. rewrite H1. cbn [bind].
  rewrite (IH _ H2). reflexivity.
Qed.

Lemma vload_holds {A} B (m : mem A) p l : aligned B p -> length l = vsize B -> holds m p l ->
  vload_aligned B m p = Ok l.
Proof.
  intros Ha Hl H. unfold vload_aligned. rewrite (vaddr_aligned B p Ha). cbn [bind].
  rewrite <- Hl. apply load_n_holds. exact H.
Qed.

(** A loop that consumes one block per iteration. *)
Lemma block_loop {A S T} (m : mem A) (w : nat) (f : S -> list A -> S) (mk : Z -> S -> T) (body : T -> res T)
    (ok : Z -> Prop) :
  (forall p, ok p -> ok (p + Z.of_nat w)) ->
  (forall p s b, ok p -> length b = w -> holds m p b -> body (mk p s) = Ok (mk (p + Z.of_nat w) (f s b))) ->
  forall bs p s, ok p -> Forall (fun b => length b = w) bs -> holds m p (concat bs) ->
  iter_res (length bs) body (mk p s) = Ok (mk (p + Z.of_nat (length bs * w)) (fold_left f bs s)).
Proof.
  intros Hok Hbody. induction bs as [|b bs IH]; intros p s Hp Hw H.
  - cbn. do 2 f_equal. lia.
  - inversion Hw as [|? ? Hb Hbs]; subst. cbn [concat] in H. apply holds_app in H. destruct H as [H1 H2].
    cbn [length iter_res fold_left]. rewrite (Hbody p s b Hp eq_refl H1). cbn [bind].
    rewrite IH; auto. do 2 f_equal. lia.
Qed.

(** Cutting a list into blocks. *)
Lemma blocks_exist {A} (w : nat) : (0 < w)%nat -> forall k (l : list A), length l = (k * w)%nat ->
  exists bs, length bs = k /\ Forall (fun b => length b = w) bs /\ concat bs = l.
Proof.
  intros Hw. induction k as [|k IH]; intros l Hl.
  - exists []. destruct l; [repeat split; constructor|discriminate].
  - destruct (IH (skipn w l)) as (bs & H1 & H2 & H3).
    + rewrite skipn_length. lia.
    + exists (firstn w l :: bs). repeat split.
      * cbn. lia.
      * constructor; [|exact H2]. rewrite firstn_length. lia.
      * cbn. rewrite H3. apply firstn_skipn.
Qed.

(** * Combining lanes *)
Section Combine.
Context {M : Type} (cmb : M -> M -> M).
Context (cA : forall x y z, cmb x (cmb y z) = cmb (cmb x y) z) (cC : forall x y, cmb x y = cmb y x).

Lemma fold_cmb l : forall x y, fold_left cmb l (cmb x y) = cmb x (fold_left cmb l y).
Proof. induction l as [|z l IH]; intros x y; cbn; [reflexivity|]. rewrite <- cA. apply IH. Qed.

Lemma fold_app l1 l2 x y : cmb (fold_left cmb l1 x) (fold_left cmb l2 y) = fold_left cmb (l1 ++ y :: l2) x.
Proof.
  rewrite fold_left_app. cbn. rewrite fold_cmb. reflexivity.
Qed.

Lemma fold_map2 : forall l1 l2 x y, length l1 = length l2 ->
  fold_left cmb (map2 cmb l1 l2) (cmb x y) = cmb (fold_left cmb l1 x) (fold_left cmb l2 y).
Proof.
  induction l1 as [|a l1 IH]; intros [|b l2] x y H; try discriminate; cbn; [reflexivity|].
  injection H as H. rewrite <- (IH l2 (cmb x a) (cmb y b) H). f_equal.
  rewrite <- (cA x y), (cA y a b), (cC y a), <- (cA a y b), (cA x a). reflexivity.
Qed.

Lemma fold_perm l1 l2 : Permutation l1 l2 -> forall x, fold_left cmb l1 x = fold_left cmb l2 x.
Proof.
  induction 1; intro z; cbn; auto.
  - rewrite <- (cA z y x), (cC y x), cA. reflexivity.
  - rewrite IHPermutation1. apply IHPermutation2.
Qed.

(** Total of a non-empty vector of contributions. *)
Definition tot (l : list M) (d : M) : M :=
  match l with [] => d | x :: r => fold_left cmb r x end.

Lemma tot_map2 l1 l2 d : length l1 = length l2 -> (0 < length l1)%nat ->
  tot (map2 cmb l1 l2) d = cmb (tot l1 d) (tot l2 d).
Proof.
  destruct l1 as [|a l1], l2 as [|b l2]; cbn; intros H H0; try lia. apply fold_map2. lia.
Qed.
End Combine.

(** * Simulation of the combining operation by exact contributions *)
Section Sim.
Context {A M : Type} (cmb : M -> M -> M).
Context (cA : forall x y z, cmb x (cmb y z) = cmb (cmb x y) z) (cC : forall x y, cmb x y = cmb y x).
(** [ok] limits the contributions; [R a x]: value [a] represents [x]. *)
Context (ok : M -> Prop) (okl : forall x y, ok (cmb x y) -> ok x).
Context (R : A -> M -> Prop).
Context (sop vop : A -> A -> A).
Context (Rs : forall a b x y, R a x -> R b y -> ok (cmb x y) -> R (sop a b) (cmb x y)).
Context (Rv : forall a b x y, R a x -> R b y -> ok (cmb x y) -> R (vop a b) (cmb x y)).
Context (d : M).

Lemma okr x y : ok (cmb x y) -> ok y. Proof. rewrite cC. apply okl. Qed.


Lemma ok_fold ms : forall z, ok (fold_left cmb ms z) -> ok z.
Proof. induction ms as [|w ms IH]; intros z H; cbn in H; [exact H|]. apply IH in H. exact (okl _ _ H). Qed.

Lemma ok_fold_all ms : forall z, ok (fold_left cmb ms z) -> Forall ok ms.
Proof.
  induction ms as [|w ms IH]; intros z H; cbn in H; constructor.
  - apply ok_fold in H. exact (okr _ _ H).
  - exact (IH _ H).
Qed.

Lemma ok_tot ms : ok (tot cmb ms d) -> Forall ok ms.
Proof.
  destruct ms as [|x ms]; intros H; constructor.
  - exact (ok_fold _ _ H).
  - exact (ok_fold_all _ _ H).
Qed.

Lemma fold_sim (op : A -> A -> A) (Ro : forall a b x y, R a x -> R b y -> ok (cmb x y) -> R (op a b) (cmb x y)) :
  forall l ms a x, Forall2 R l ms -> R a x -> ok (fold_left cmb ms x) -> R (fold_left op l a) (fold_left cmb ms x).
Proof.
  intros l ms a x H. revert a x. induction H as [|b y l ms Hb H IH]; intros a x Ha Hok; cbn in *; [exact Ha|].
  apply IH; [|exact Hok]. apply Ro; auto. exact (ok_fold _ _ Hok).
Qed.

Lemma map2_sim (op : A -> A -> A) (Ro : forall a b x y, R a x -> R b y -> ok (cmb x y) -> R (op a b) (cmb x y)) :
  forall u us v vs, Forall2 R u us -> Forall2 R v vs -> Forall ok (map2 cmb us vs) ->
  Forall2 R (map2 op u v) (map2 cmb us vs).
Proof.
  intros u us v vs H. revert v vs. induction H as [|a x u us Ha H IH]; intros v vs Hv Hok; cbn; [constructor|].
  destruct Hv as [|b y v vs Hb Hv]; [constructor|]. cbn in Hok. inversion Hok; subst.
  constructor; auto.
Qed.

Lemma tree4 x0 x1 x2 x3 : cmb (cmb x2 x0) (cmb x3 x1) = cmb (cmb (cmb x0 x1) x2) x3.
Proof.
  rewrite (cC x2 x0), (cC x3 x1), <- (cA x0 x2), (cA x2 x1 x3), (cC x2 x1), <- (cA x1 x2 x3), !cA. reflexivity.
Qed.
Lemma tree4' x0 x1 x2 x3 : cmb (cmb x0 x2) (cmb x1 x3) = cmb (cmb (cmb x0 x1) x2) x3.
Proof. rewrite (cC x0 x2), (cC x1 x3). apply tree4. Qed.
Lemma tree4s x0 x1 x2 x3 : cmb (cmb x0 x1) (cmb x2 x3) = cmb (cmb (cmb x0 x1) x2) x3.
Proof. rewrite cA. reflexivity. Qed.

Local Ltac inv_all :=
  repeat match goal with K : Forall2 R (_ :: _) _ |- _ => inversion K; subst; clear K end.

Lemma list4 {X} (l : list X) : length l = 4%nat -> exists a b c e, l = [a; b; c; e].
Proof. destruct l as [|a [|b [|c [|e [|f l]]]]]; try discriminate. intros _. repeat eexists. Qed.
Lemma list2 {X} (l : list X) : length l = 2%nat -> exists a b, l = [a; b].
Proof. destruct l as [|a [|b [|c l]]]; try discriminate. intros _. repeat eexists. Qed.

Lemma Forall2_len {X Y} (Q : X -> Y -> Prop) l l' : Forall2 Q l l' -> length l = length l'.
Proof. induction 1; cbn; congruence. Qed.

(** horizontal_max / horizontal_min. *)
Lemma horizontal_sim B v ms : Forall2 R v ms -> length v = vsize B -> ok (tot cmb ms d) ->
  exists r, horizontal_max B sop vop v = Ok r /\ R r (tot cmb ms d).
Proof.
  intros H Hl Hok. pose proof (Forall2_len _ _ _ H) as HL.
  assert (Hfold : exists r, fold_lanes sop v = Ok r /\ R r (tot cmb ms d)).
  { destruct H as [|a x v ms Ha H]; [pose proof (vsize_pos B); cbn in Hl; lia|].
    eexists. split; [reflexivity|]. cbn. apply fold_sim; auto. }
  destruct B; try exact Hfold; clear Hfold; cbn [vsize] in Hl.
  - destruct (list4 v Hl) as (a0 & a1 & a2 & a3 & ->). rewrite Hl in HL. symmetry in HL.
    destruct (list4 ms HL) as (x0 & x1 & x2 & x3 & ->). inv_all.
    eexists. split; [reflexivity|]. cbn [tot fold_left] in *. rewrite <- tree4 in *.
    apply Rv; [apply Rv; auto; exact (okl _ _ Hok)|apply Rv; auto; exact (okr _ _ Hok)|exact Hok].
  - destruct (list2 v Hl) as (a0 & a1 & ->). rewrite Hl in HL. symmetry in HL.
    destruct (list2 ms HL) as (x0 & x1 & ->). inv_all. 
    eexists. split; [reflexivity|]. cbn [tot fold_left] in *. apply Rv; auto.
  - destruct (list4 v Hl) as (a0 & a1 & a2 & a3 & ->). rewrite Hl in HL. symmetry in HL.
    destruct (list4 ms HL) as (x0 & x1 & x2 & x3 & ->). inv_all.
    eexists. split; [reflexivity|]. cbn [tot fold_left] in *. rewrite <- tree4' in *.
    apply Rs; [apply Rv; auto; exact (okl _ _ Hok)|apply Rv; auto; exact (okr _ _ Hok)|exact Hok].
Qed.

(** horizontal_sum, [vop] being the addition and [zero] a value that
    contributes nothing. *)
Lemma horizontal_sum_sim c B zero z0 v ms : R zero z0 -> (forall x, cmb z0 x = x) ->
  Forall2 R v ms -> length v = vsize B -> ok (tot cmb ms d) ->
  exists r, horizontal_sum c B zero vop v = Ok r /\ R r (tot cmb ms d).
Proof.
  intros Hz Hu H Hl Hok. pose proof (Forall2_len _ _ _ H) as HL.
  assert (Hfold : exists r, Ok (fold_left vop v zero) = Ok r /\ R r (tot cmb ms d)).
  { destruct H as [|a x v ms Ha H]; [pose proof (vsize_pos B); cbn in Hl; lia|].
    eexists. split; [reflexivity|]. cbn in *. apply fold_sim; auto. rewrite <- (Hu x). apply Rv; auto.
    rewrite Hu. exact (ok_fold _ _ Hok). }
  destruct B; try exact Hfold; clear Hfold; cbn [vsize] in Hl.
  - destruct (list4 v Hl) as (a0 & a1 & a2 & a3 & ->). rewrite Hl in HL. symmetry in HL.
    destruct (list4 ms HL) as (x0 & x1 & x2 & x3 & ->). inv_all.
    cbn [horizontal_sum]. destruct (has_sse3 c); (eexists; split; [reflexivity|]); cbn [tot fold_left] in *.
    + rewrite <- tree4s in *.
      apply Rv; [apply Rv; auto; exact (okl _ _ Hok)|apply Rv; auto; exact (okr _ _ Hok)|exact Hok].
    + rewrite <- tree4 in *.
      apply Rv; [apply Rv; auto; exact (okl _ _ Hok)|apply Rv; auto; exact (okr _ _ Hok)|exact Hok].
  - destruct (list2 v Hl) as (a0 & a1 & ->). rewrite Hl in HL. symmetry in HL.
    destruct (list2 ms HL) as (x0 & x1 & ->). inv_all. 
    eexists. split; [reflexivity|]. cbn [tot fold_left] in *. apply Rv; auto.
  - destruct (list4 v Hl) as (a0 & a1 & a2 & a3 & ->). rewrite Hl in HL. symmetry in HL.
    destruct (list4 ms HL) as (x0 & x1 & x2 & x3 & ->). inv_all.
    eexists. split; [reflexivity|]. cbn [tot fold_left] in *. rewrite <- tree4s in *.
    apply Rv; [apply Rv; auto; exact (okl _ _ Hok)|apply Rv; auto; exact (okr _ _ Hok)|exact Hok].
Qed.

(** Accumulating blocks into a vector. *)
Lemma acc_sim (w : nat) : (0 < w)%nat -> forall bs bss acc ms,
  Forall2 (Forall2 R) bs bss -> Forall2 R acc ms -> length ms = w -> Forall (fun b => length b = w) bss ->
  ok (tot cmb (fold_left (map2 cmb) bss ms) d) ->
  Forall2 R (fold_left (map2 vop) bs acc) (fold_left (map2 cmb) bss ms) /\
  length (fold_left (map2 cmb) bss ms) = w.
Proof.
  intros Hw bs bss acc ms H. revert acc ms.
  assert (Hlen : forall l1 l2 : list M, length l1 = w -> length l2 = w -> length (map2 cmb l1 l2) = w).
  { clear. intros l1 l2. revert w l2. induction l1; intros [|w] [|y l2]; cbn; intros; try discriminate; auto. }
  assert (Hpre : forall bss ms, length ms = w -> Forall (fun b => length b = w) bss ->
     ok (tot cmb (fold_left (map2 cmb) bss ms) d) -> ok (tot cmb ms d)).
  { clear H bs bss. induction bss as [|b bss IH]; intros ms Hm Hbs Hok; cbn in Hok; [exact Hok|].
    inversion Hbs; subst. apply IH in Hok; auto. rewrite (tot_map2 cmb cA cC) in Hok by lia. exact (okl _ _ Hok). }
  induction H as [|b x bs bss Hb H IH]; intros acc ms Hacc Hm Hbs Hok; cbn in *; [auto|].
  inversion Hbs as [|? ? Hx Hbs']; subst. apply IH; auto.
  apply (map2_sim vop Rv); auto. apply ok_tot. apply (Hpre bss); auto.
Qed.

(** The total of the accumulated vector. *)
Lemma tot_acc (w : nat) : (0 < w)%nat -> forall bss ms, length ms = w -> Forall (fun b => length b = w) bss ->
  tot cmb (fold_left (map2 cmb) bss ms) d = fold_left cmb (concat bss) (tot cmb ms d).
Proof.
  intros Hw. 
  assert (Hlen : forall l1 l2 : list M, length l1 = w -> length l2 = w -> length (map2 cmb l1 l2) = w).
  { clear. intros l1 l2. revert w l2. induction l1; intros [|w] [|y l2]; cbn; intros; try discriminate; auto. }
  induction bss as [|b bss IH]; intros ms Hm Hbs; cbn; [reflexivity|].
  inversion Hbs as [|? ? Hx Hbs']; subst. rewrite IH; auto. rewrite fold_left_app. f_equal.
  rewrite (tot_map2 cmb cA cC) by lia. destruct b as [|y b]; [cbn in *; lia|]. cbn. rewrite (fold_cmb cmb cA). reflexivity.
Qed.
End Sim.
