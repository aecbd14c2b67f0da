(** Altivec accesses ignore the low address bits, so a call at a misaligned
    address is a call at the aligned address below it. *)

From Coq Require Import ZArith List Lia.
From Verif Require Import Base Mem Loop Backend Args MemFuns Spec LoopFacts MemFacts BlockFacts MemFunFacts CopyFacts SpecReduce.
Import ListNotations.
Local Open Scope Z_scope.

Section Altivec.
Context {A : Type}.
Local Notation B := ALTIVEC32.

Lemma down_step p : floor4 (p + 4) = floor4 p + 4.
Proof. unfold floor4. replace (p + 4) with (p + 1 * 4) by lia. rewrite Z.div_add by lia. lia. Qed.
Lemma down_steps p k : floor4 (p + k * 4) = floor4 p + k * 4.
Proof. unfold floor4. rewrite Z.div_add by lia. lia. Qed.
Lemma down_idem p : floor4 (floor4 p) = floor4 p.
Proof. unfold floor4. replace (4 * (p / 4)) with (p / 4 * 4) by lia. rewrite Z.div_mul by lia. lia. Qed.
Lemma down_addr p : p - p mod 4 = floor4 p.
Proof. unfold floor4. rewrite Z.mod_eq by lia. lia. Qed.
Lemma down_aligned p : aligned B (floor4 p). Proof. exists (p / 4). unfold floor4. change (align_req B) with 4. lia. Qed.
Lemma down_below p : ~ aligned B p -> floor4 p < p < floor4 p + 4.
Proof.
  intros H. unfold floor4. pose proof (Z.mod_pos_bound p 4 ltac:(lia)). pose proof (Z.div_mod p 4 ltac:(lia)).
  assert (p mod 4 <> 0). { intro E. apply H. exists (p / 4). change (align_req B) with 4. lia. } lia.
Qed.

Lemma vload_down al (m : mem A) p : load_al B al m p = load_al B al m (floor4 p).
Proof. destruct al; unfold load_al, vload_aligned, vload; cbn [vaddr aligned_rule unaligned_rule bind]; change (Z.of_nat (vsize B)) with 4; rewrite !down_addr, down_idem; reflexivity. Qed.
Lemma vstore_down al (m : mem A) p v : store_al B al m p v = store_al B al m (floor4 p) v.
Proof. destruct al; unfold store_al, vstore_aligned, vstore; cbn [vaddr aligned_rule unaligned_rule bind]; change (Z.of_nat (vsize B)) with 4; rewrite !down_addr, down_idem; reflexivity. Qed.

Lemma setvec_mp_down al v : forall k (m : mem A) p, setvec_mp B al k m p v = setvec_mp B al k m (floor4 p) v.
Proof.
  induction k as [|k IH]; intros m p; cbn [setvec_mp]; [reflexivity|]. rewrite (vstore_down al m p).
  destruct (store_al B al m (floor4 p) v) as [m'|]; cbn [bind]; [|reflexivity].
  change (Z.of_nat (vsize B)) with 4. rewrite IH, down_step. reflexivity.
Qed.

Lemma iter_rel {S T} (P : S -> T -> Prop) (f : S -> res S) (g : T -> res T) :
  (forall s t, P s t -> match f s, g t with Ok s', Ok t' => P s' t' | Fault e, Fault e' => e = e' | _, _ => False end) ->
  forall k s t, P s t -> match iter_res k f s, iter_res k g t with Ok s', Ok t' => P s' t' | Fault e, Fault e' => e = e' | _, _ => False end.
Proof.
  intros H. induction k as [|k IH]; intros s t Hst; cbn [iter_res]; [exact Hst|].
  specialize (H s t Hst). destruct (f s), (g t); cbn [bind]; try contradiction; [apply IH; exact H|exact H].
Qed.

Lemma setvec_rt_down al v (m : mem A) p n : legal_simd_length B n ->
  detail_setvec_simd B al m p v n = detail_setvec_simd B al m (floor4 p) v n.
Proof.
  intros Hn. destruct (legal_count B n Hn) as (Hk & _). unfold detail_setvec_simd.
  rewrite !do_while_iter by exact Hk.
  match goal with |- bind (iter_res ?k ?b _) _ = _ => 
    pose proof (iter_rel (fun s t => fst s = fst t /\ floor4 (snd s) = snd t) b b) as R;
    specialize (fun H => R H k (m, p) (m, floor4 p) (conj eq_refl eq_refl)) end.
  match type of R with ?X -> _ => assert (X) as HX end.
  { intros [m1 p1] [m2 p2] [E1 E2]. cbn [fst snd] in *. subst m2 p2. rewrite (setvec_mp_down al v _ m1 p1).
    destruct (setvec_mp B al (vecs_per_loop B) m1 (floor4 p1) v); cbn [bind]; [|reflexivity]. split; [reflexivity|]. cbn [snd].
    change (samples_per_loop B) with (4 * 4). apply down_steps. }
  specialize (R HX).
  match goal with |- bind ?x _ = bind ?y _ => destruct x as [[a b]|], y as [[a' b']|]; cbn [bind fst snd] in *; try contradiction end;
    [destruct R as [-> _]; reflexivity|congruence].
Qed.

Lemma copy_mp_down sa da : forall k (m : mem A) d s v, copy_mp B sa da k m d s v = copy_mp B sa da k m (floor4 d) (floor4 s) v.
Proof.
  induction k as [|k IH]; intros m d s v; cbn [copy_mp]; [reflexivity|]. rewrite (vload_down sa m s), (vstore_down da m d).
  destruct (load_al B sa m (floor4 s)) as [x|]; cbn [bind]; [|reflexivity].
  destruct (store_al B da m (floor4 d) v) as [m'|]; cbn [bind]; [|reflexivity].
  change (Z.of_nat (vsize B)) with 4. rewrite IH, !down_step. reflexivity.
Qed.
Lemma copy_run_down sa da k (m : mem A) d s : copy_run B sa da k m d s = copy_run B sa da k m (floor4 d) (floor4 s).
Proof.
  unfold copy_run. rewrite (vload_down sa m s). destruct (load_al B sa m (floor4 s)) as [x|]; cbn [bind]; [|reflexivity].
  rewrite copy_mp_down. change (Z.of_nat (vsize B)) with 4. rewrite down_step. reflexivity.
Qed.
Lemma copy_rt_down sa da (m : mem A) d s n : legal_simd_length B n ->
  copyvec_simd_gen B sa da m d s n = copyvec_simd_gen B sa da m (floor4 d) (floor4 s) n.
Proof.
  intros Hn. destruct (legal_count B n Hn) as (Hk & _). unfold copyvec_simd_gen.
  rewrite !do_while_iter by exact Hk.
  match goal with |- bind (iter_res ?k ?b _) _ = _ => 
    pose proof (iter_rel (fun s t => fst s = (fst (fst t), floor4 (snd (fst s))) /\ snd (fst t) = floor4 (snd (fst s)) /\ snd t = floor4 (snd s)) b b) as R end.
  clear R.
  match goal with |- bind (iter_res ?k ?b _) _ = _ => 
    pose proof (iter_rel (fun s t => fst (fst s) = fst (fst t) /\ snd (fst t) = floor4 (snd (fst s)) /\ snd t = floor4 (snd s)) b b) as R;
    specialize (fun H => R H k (m, d, s) (m, floor4 d, floor4 s) (conj eq_refl (conj eq_refl eq_refl))) end.
  match type of R with ?X -> _ => assert (X) as HX end.
  { intros [[m1 d1] s1] [[m2 d2] s2] (E1 & E2 & E3). cbn [fst snd] in *. subst m2 d2 s2. rewrite (copy_run_down sa da _ m1 d1 s1).
    destruct (copy_run B sa da (vecs_per_loop B) m1 (floor4 d1) (floor4 s1)); cbn [bind]; [|reflexivity]. split; [reflexivity|]. cbn [fst snd].
    change (samples_per_loop B) with (4 * 4). split; symmetry; apply down_steps. }
  specialize (R HX).
  match goal with |- bind ?x _ = bind ?y _ => destruct x as [[[a b] c]|], y as [[[a' b'] c']|]; cbn [bind fst snd] in *; try contradiction end;
    [destruct R as [-> _]; reflexivity|congruence].
Qed.

(** What the fill and copy functions do at any address. *)
Lemma fill_lands_below al (m : mem A) p f n : legal_simd_length B n -> accessible m (floor4 p) n ->
  leaves m (detail_setvec_simd B al m p (set_vec B f) n) (floor4 p) n (fun _ => Some f).
Proof.
  intros Hn Ha. rewrite setvec_rt_down by exact Hn. apply setvec_rt_ok; auto. intros _. apply down_aligned.
Qed.
Lemma copy_lands_below sa da (m : mem A) d s n : legal_simd_length B n -> accessible m (floor4 d) n -> accessible m (floor4 s) (n + 4) ->
  overlap_ok (A := A) (floor4 d) (APtr (floor4 s)) n ->
  leaves m (copyvec_simd_gen B sa da m d s n) (floor4 d) n (fun i => m (floor4 s + i)).
Proof.
  intros Hn Hd Hs Ho. rewrite copy_rt_down by exact Hn. apply copy_rt_ok; auto; intros _; apply down_aligned.
Qed.
Lemma not_at_p (m m' : mem A) p n v : ~ aligned B p -> 0 < n -> (4 | n) -> writes_exactly m m' (floor4 p) n v ->
  m' (p + n - 1) = m (p + n - 1) /\ m' (p - 1) = v (p - 1 - floor4 p).
Proof.
  intros Hp Hn [q Hq] [W1 W2]. pose proof (down_below p Hp). split.
  - apply W2. lia.
  - destruct (W1 (p - 1 - floor4 p)) as [E _]; [lia|]. rewrite <- E. f_equal. lia.
Qed.
End Altivec.
