(** Forward overlap of the scalar driver; rounding of SIMD lengths; is_aligned. *)
From Coq Require Import ZArith List Lia Bool.
From Verif Require Import Base Mem Loop Backend Args Drivers Spec LoopFacts MemFacts KaryFacts
  DriverFacts FaultFacts.
Import ListNotations.
Local Open Scope Z_scope.

Section Forward.
Context {A : Type} (f : A -> A) (m : mem A) (inp dist n : Z).
Hypothesis Hn : 0 < n < 2 ^ 32.
Hypothesis Hd : 0 < dist.
Hypothesis Ha : accessible m inp (n + dist).

Let fwd (d : A) (i : Z) : A :=
  Nat.iter (S (Z.to_nat (i / dist))) f (cell d m (inp + i mod dist)).

Lemma fwd_small d i : 0 <= i < dist -> fwd d i = f (cell d m (inp + i)).
Proof. intros Hi. unfold fwd. rewrite Z.div_small, Z.mod_small by lia. reflexivity. Qed.

Lemma fwd_step d i : dist <= i -> fwd d i = f (fwd d (i - dist)).
Proof.
  intros Hi. unfold fwd.
  replace (i mod dist) with ((i - dist) mod dist)
    by (rewrite <- (Z_mod_plus_full (i - dist) 1 dist); f_equal; lia).
  replace (i / dist) with ((i - dist) / dist + 1)
    by (rewrite <- Z_div_plus_full by lia; f_equal; lia).
  assert (0 <= (i - dist) / dist) by (apply Z.div_pos; lia).
  replace (Z.to_nat ((i - dist) / dist + 1)) with (S (Z.to_nat ((i - dist) / dist))) by lia.
  apply iterS.
Qed.

Lemma iter_forward d k : Z.of_nat k <= n ->
  exists m', iter_res k (sbody1 f) (m, inp + dist, inp) =
               Ok (m', inp + dist + Z.of_nat k, inp + Z.of_nat k) /\
    meq m' (wr m (inp + dist) (Z.of_nat k) (fwd d)).
Proof.
  intros Hk.
  destruct (iter_res_inv (sbody1 f)
    (fun j s => exists m1, s = (m1, inp + dist + Z.of_nat j, inp + Z.of_nat j) /\
                           meq m1 (wr m (inp + dist) (Z.of_nat j) (fwd d))) k)
    with (s := (m, inp + dist, inp)) as (s' & E & m' & -> & G).
  - intros j s Hj (m1 & -> & Hm). cbn [sbody1].
    assert (L : load m1 (inp + Z.of_nat j)
                = Ok (if Z.of_nat j <? dist then cell d m (inp + Z.of_nat j)
                      else fwd d (Z.of_nat j - dist))).
    { unfold load. rewrite Hm. destruct (Z.ltb_spec (Z.of_nat j) dist) as [Lt|Ge].
      - rewrite wr_out by lia. unfold cell.
        destruct (Ha (Z.of_nat j)) as [x Hx]; [lia|]. rewrite Hx. reflexivity.
      - replace (inp + Z.of_nat j) with (inp + dist + (Z.of_nat j - dist)) by lia.
        rewrite wr_in by lia. reflexivity. }
    rewrite L. cbn [bind].
    destruct (store_wr m (inp + dist) (fwd d) (Z.of_nat j) m1
                (f (if Z.of_nat j <? dist then cell d m (inp + Z.of_nat j)
                    else fwd d (Z.of_nat j - dist)))) as (m2 & E2 & G2); auto; [lia| | |].
    + destruct (Ha (dist + Z.of_nat j)) as [x Hx]; [lia|]. exists x. rewrite <- Hx. f_equal. lia.
    + destruct (Z.ltb_spec (Z.of_nat j) dist); symmetry; [apply fwd_small|apply fwd_step]; lia.
    + rewrite E2. cbn [bind]. eexists. split; [reflexivity|]. exists m2. split.
      * f_equal; [f_equal|]; lia.
      * intro a. rewrite G2. f_equal. lia.
  - exists m. split; [f_equal; [f_equal|]; lia|apply meq_wr_0].
  - eauto.
Qed.

Lemma forward_leaves :
  leaves m (unary_vec f m (inp + dist) inp n) (inp + dist) n
    (fun i => option_map (Nat.iter (S (Z.to_nat (i / dist))) f) (m (inp + i mod dist))).
Proof.
  destruct (Ha 0) as [d _]; [lia|].
  destruct (iter_forward d (Z.to_nat n)) as (m' & E & G); [lia|].
  exists m'. unfold unary_vec, apply_on_vector1.
  rewrite do_while_iter by (rewrite two32_eq; lia). rewrite E. cbn [bind].
  split; [reflexivity|]. rewrite Z2Nat.id in G by lia.
  eapply writes_exactly_of_wr; [exact G|]. intros i Hi. unfold fwd, cell.
  assert (0 <= i mod dist < dist) by (apply Z.mod_pos_bound; lia).
  destruct (Ha (i mod dist)) as [x Hx]; [lia|]. rewrite Hx. reflexivity.
Qed.
End Forward.

Lemma unary_vec_forward {A} (f : A -> A) (m : mem A) (inp distance n : Z) :
  0 < n < 2 ^ 32 -> 0 < distance ->
  accessible m inp (n + distance) ->
  leaves m (unary_vec f m (inp + distance) inp n) (inp + distance) n
    (fun i => option_map (Nat.iter (S (Z.to_nat (i / distance))) f) (m (inp + i mod distance))).
Proof. intros. apply forward_leaves; assumption. Qed.

Lemma rounded_down B n : loop_unit B <= n < 2 ^ 32 ->
  n / samples_per_loop B = (n - n mod loop_unit B) / samples_per_loop B /\
  rounded B n = n - n mod loop_unit B /\
  legal_simd_length B (n - n mod loop_unit B).
Proof.
  intros Hn. rewrite loop_unit_spec. pose proof (loop_unit_pos B) as Hp.
  set (u := loop_unit B) in *.
  pose proof (Z.div_mod n u ltac:(lia)) as D. pose proof (Z.mod_pos_bound n u Hp) as M.
  assert (E : n - n mod u = n / u * u) by lia.
  assert (1 <= n / u) by (apply Z.div_le_lower_bound; lia).
  split; [|split].
  - rewrite E. rewrite Z.div_mul; lia.
  - unfold rounded. fold u. lia.
  - rewrite E. split; [nia|]. exists (n / u). reflexivity.
Qed.

Lemma load_n_accessible {A} (m : mem A) : forall k q,
  accessible m q (Z.of_nat k) -> exists l, load_n k m q = Ok l.
Proof.
  induction k as [|k IH]; intros q Hq; cbn [load_n]; [eauto|].
  destruct (Hq 0) as [y Hy]; [lia|]. rewrite Z.add_0_r in Hy. unfold load. rewrite Hy. cbn [bind].
  destruct (IH (q + 1)) as [l ->]; [|cbn; eauto].
  intros j Hj. destruct (Hq (j + 1)) as [z Hz]; [lia|]. exists z. rewrite <- Hz. f_equal. lia.
Qed.

Lemma store_list_accessible {A} : forall (l : list A) (m : mem A) q,
  accessible m q (Z.of_nat (length l)) -> exists m', store_list m q l = Ok m'.
Proof.
  induction l as [|x r IH]; intros m q Hq; cbn [store_list]; [eauto|].
  destruct (Hq 0) as [y Hy]; [cbn [length]; lia|]. rewrite Z.add_0_r in Hy.
  unfold store. rewrite Hy. cbn [bind]. apply IH.
  intros j Hj. destruct (Hq (j + 1)) as [z Hz]; [cbn [length]; lia|].
  unfold upd. destruct (q + 1 + j =? q); [eauto|]. exists z. rewrite <- Hz. f_equal. lia.
Qed.

Lemma is_aligned_exact (B : backend) (a : Z) :
  traps B ->
  (is_aligned B (a * elem_bytes B) = true <-> aligned B a) /\
  (forall A (m : mem A), accessible m a (Z.of_nat (vsize B)) ->
     if is_aligned B (a * elem_bytes B)
     then exists v, vload_aligned B m a = Ok v
     else vload_aligned B m a = Fault (Misaligned a)) /\
  (forall A (m : mem A) (v : list A), length v = vsize B -> accessible m a (Z.of_nat (vsize B)) ->
     if is_aligned B (a * elem_bytes B)
     then exists m', vstore_aligned B m a v = Ok m'
     else vstore_aligned B m a v = Fault (Misaligned a)).
Proof.
  intros HT. pose proof (is_aligned_traps B a HT) as HI. split; [exact HI|].
  destruct (is_aligned B (a * elem_bytes B)) eqn:E.
  - assert (Hal : aligned B a) by (apply HI; reflexivity). split.
    + intros A m Hm. unfold vload_aligned. rewrite vaddr_aligned by assumption. cbn [bind].
      apply load_n_accessible. assumption.
    + intros A m v Hv Hm. unfold vstore_aligned. rewrite vaddr_aligned by assumption. cbn [bind].
      apply store_list_accessible. rewrite Hv. assumption.
  - assert (Hal : ~ aligned B a) by (intro C; apply HI in C; discriminate). split.
    + intros A m _. unfold vload_aligned. rewrite vaddr_misaligned by assumption. reflexivity.
    + intros A m v _ _. unfold vstore_aligned. rewrite vaddr_misaligned by assumption. reflexivity.
Qed.
