(** What the reduction functions compute, as folds over the buffer contents. *)

From Coq Require Import ZArith List Lia.
From Verif Require Import Base Mem Loop Backend Lanes Reduce Spec SpecReduce LoopFacts MemFacts ReduceFacts.
Import ListNotations.
Local Open Scope Z_scope.

Lemma scan_loop {A S T} (m : mem A) (f : S -> A -> S) (mk : Z -> S -> T) (body : T -> res T) :
  (forall p s x, m p = Some x -> body (mk p s) = Ok (mk (p + 1) (f s x))) ->
  forall l p s, holds m p l ->
  iter_res (length l) body (mk p s) = Ok (mk (p + Z.of_nat (length l)) (fold_left f l s)).
Proof.
  intros Hb. induction l as [|x l IH]; intros p s H; cbn [length iter_res fold_left].
  - do 2 f_equal. lia.
  - apply holds_cons in H. destruct H as [H1 H2]. rewrite (Hb _ _ _ H1). cbn [bind]. rewrite (IH _ _ H2).
    do 2 f_equal. lia.
Qed.

Lemma fold_left_pair {X S T} (f : S -> X -> S) (g : T -> X -> T) l : forall s u,
  fold_left (fun st x => (f (fst st) x, g (snd st) x)) l (s, u) = (fold_left f l s, fold_left g l u).
Proof. induction l as [|x l IH]; intros s u; cbn; [reflexivity|apply IH]. Qed.

Lemma skipn_add {X} a : forall b (l : list X), skipn a (skipn b l) = skipn (b + a) l.
Proof.
  induction b as [|b IH]; intros l; [reflexivity|]. destruct l; cbn; [apply skipn_nil|apply IH].
Qed.

Section Run.
Context {A : Type} (d : redops A).

Lemma dw_scan {S T} (m : mem A) (f : S -> A -> S) (mk : Z -> S -> T) (body : T -> res T) p n l s :
  (forall p s x, m p = Some x -> body (mk p s) = Ok (mk (p + 1) (f s x))) ->
  filled m p n l -> do_while body n (mk p s) = Ok (mk (p + n) (fold_left f l s)).
Proof.
  intros Hb (H1 & H2 & H3). rewrite do_while_iter by (unfold two32; lia).
  replace (Z.to_nat n) with (length l) by lia. rewrite (scan_loop m f mk body Hb l p s H1), H2. reflexivity.
Qed.

Lemma horizontal_max_vec_run m p n l : filled m p n l ->
  horizontal_max_vec d m p n = Ok (fold_left (d_smax d) l (d_lmin d)).
Proof.
  intros H. unfold horizontal_max_vec.
  rewrite (dw_scan m (d_smax d) (fun p s => (p, s)) _ p n l); [reflexivity| |exact H].
  intros q s x Hx. unfold load. rewrite Hx. reflexivity.
Qed.

Lemma horizontal_min_vec_run m p n l : filled m p n l ->
  horizontal_min_vec d m p n = Ok (fold_left (d_smin d) l (d_lmin d)).
Proof.
  intros H. unfold horizontal_min_vec.
  rewrite (dw_scan m (d_smin d) (fun p s => (p, s)) _ p n l); [reflexivity| |exact H].
  intros q s x Hx. unfold load. rewrite Hx. reflexivity.
Qed.

Lemma horizontal_sum_vec_run m p n l : filled m p n l ->
  horizontal_sum_vec d m p n = Ok (fold_left (d_add d) l (d_zero d)).
Proof.
  intros H. unfold horizontal_sum_vec.
  rewrite (dw_scan m (d_add d) (fun p s => (p, s)) _ p n l); [reflexivity| |exact H].
  intros q s x Hx. unfold load. rewrite Hx. reflexivity.
Qed.

Lemma horizontal_minmax_vec_run m p n l : filled m p n l ->
  horizontal_minmax_vec d m p n =
  Ok (fold_left (d_smin d) l (d_lmax d), fold_left (d_smax d) l (d_lmin d)).
Proof.
  intros H. unfold horizontal_minmax_vec.
  rewrite (dw_scan m (fun st x => (d_smax d (fst st) x, d_smin d (snd st) x)) (fun p s => (p, fst s, snd s)) _ p n l (d_lmin d, d_lmax d)); [|  |exact H].
  - cbn [bind]. rewrite fold_left_pair. reflexivity.
  - intros q s x Hx. unfold load. rewrite Hx. reflexivity.
Qed.

Lemma horizontal_maxsum_vec_run m p n l : filled m p n l ->
  horizontal_maxsum_vec d m p n =
  Ok (fold_left (d_smax d) l (d_lmin d), fold_left (d_add d) l (d_zero d)).
Proof.
  intros H. unfold horizontal_maxsum_vec.
  rewrite (dw_scan m (fun st x => (d_smax d (fst st) x, d_add d (snd st) x)) (fun p s => (p, fst s, snd s)) _ p n l (d_lmin d, d_zero d)); [|  |exact H].
  - cbn [bind]. rewrite fold_left_pair. reflexivity.
  - intros q s x Hx. unfold load. rewrite Hx. reflexivity.
Qed.

Lemma fold_last_opt {X Y} (f : X -> Y) l : forall o, fold_left (fun _ x => Some (f x)) l o =
  match rev l with [] => o | x :: _ => Some (f x) end.
Proof.
  induction l as [|x l IH]; intros o; cbn; [reflexivity|]. rewrite IH.
  destruct (rev l) as [|y r]; reflexivity.
Qed.

Lemma rev_last {X} (l : list X) x0 : l <> [] -> exists r, rev l = last l x0 :: r.
Proof.
  intros H. destruct (exists_last H) as (l' & a & ->). rewrite rev_app_distr, last_last. cbn. eexists. reflexivity.
Qed.

Lemma peak_vec_run m p pk n l old x0 : filled m p n l -> m pk = Some old ->
  peak_vec d m p pk n =
  Ok (upd m pk (fold_left (d_smax d) (map (d_fabs d) l) old), d_fabs d (last l x0)).
Proof.
  intros H Hpk. unfold peak_vec, load at 1. rewrite Hpk. cbn [bind].
  rewrite (dw_scan m (fun st x => (Some (d_fabs d x), d_smax d (snd st) (d_fabs d x))) (fun p s => (p, fst s, snd s)) _ p n l (None, old)); [|  |exact H].
  - cbn [bind].
    rewrite (fold_left_pair (fun _ x => Some (d_fabs d x)) (fun a x => d_smax d a (d_fabs d x)) l None old). cbn [fst snd].
    unfold store. rewrite Hpk. cbn [bind]. rewrite fold_last_opt.
    destruct (rev_last l x0) as [r Hr]; [destruct H as (_ & H & H'); destruct l; cbn in *; [lia|discriminate]|].
    rewrite Hr. cbn [initialised bind]. do 3 f_equal.
    clear. revert old. induction l as [|x l IH]; intro old; cbn; [reflexivity|apply IH].
  - intros q s x Hx. unfold load. rewrite Hx. reflexivity.
Qed.

Lemma peak_rms_vec_run m p pk sq n l old olds : filled m p n l -> m pk = Some old -> m sq = Some olds ->
  peak_rms_vec d m p pk sq n =
  Ok (upd (upd m pk (fold_left (d_smax d) (map (d_fabs d) l) old)) sq
          (fold_left (d_add d) (map (fun x => d_mul d x x) l) olds)).
Proof.
  intros H Hpk Hsq. unfold peak_rms_vec, load at 1. rewrite Hpk. cbn [bind]. unfold load at 1. rewrite Hsq. cbn [bind].
  rewrite (dw_scan m (fun st x => (d_smax d (fst st) (d_fabs d x), d_add d (snd st) (d_mul d x x))) (fun p s => (p, fst s, snd s)) _ p n l (old, olds)); [|  |exact H].
  - cbn [bind].
    rewrite (fold_left_pair (fun a x => d_smax d a (d_fabs d x)) (fun a x => d_add d a (d_mul d x x)) l old olds). cbn [fst snd].
    unfold store at 1. rewrite Hpk. cbn [bind]. unfold store, upd at 1.
    assert (E : forall u (o : A), fold_left (fun a x => d_smax d a (d_fabs d x)) u o = fold_left (d_smax d) (map (d_fabs d) u) o).
    { induction u as [|x u IH]; intro o; cbn; [reflexivity|apply IH]. }
    assert (E' : forall u (o : A), fold_left (fun a x => d_add d a (d_mul d x x)) u o = fold_left (d_add d) (map (fun x => d_mul d x x) u) o).
    { induction u as [|x u IH]; intro o; cbn; [reflexivity|apply IH]. }
    rewrite E, E'. destruct (Z.eqb_spec sq pk); [reflexivity|]. rewrite Hsq. reflexivity.
  - intros q s x Hx. unfold load. rewrite Hx. reflexivity.
Qed.

(** * Vector versions *)
Context (c : cfg) (B : backend).
Local Notation step := (Z.of_nat (vsize B)).

(** The buffer at [p] consists of the blocks [bs] of [w] elements. *)
Definition filled_blocks (w : nat) (m : mem A) (p n : Z) (bs : list (list A)) : Prop :=
  holds m p (concat bs) /\ Forall (fun b => length b = w) bs /\
  Z.of_nat (length bs) * Z.of_nat w = n /\ 0 < n < 2 ^ 32.

Lemma filled_blocks_exist w m p n l : (0 < w)%nat -> filled m p n l -> (Z.of_nat w | n) ->
  exists bs, filled_blocks w m p n bs /\ concat bs = l.
Proof.
  intros Hw (H1 & H2 & H3) [q Hq]. assert (0 < q) by nia.
  destruct (blocks_exist w Hw (Z.to_nat q) l) as (bs & K1 & K2 & K3); [nia|].
  exists bs. split; [|exact K3]. split; [rewrite K3; exact H1|]. split; [exact K2|]. split; [rewrite K1; nia|lia].
Qed.

Lemma dw_blocks' {S T} (w : nat) (m : mem A) (f : S -> list A -> S) (mk : Z -> S -> T) (body : T -> res T) p n bs s :
  (exists k, Z.of_nat w = k * step) -> (0 < w)%nat ->
  (forall p s b, aligned B p -> length b = w -> holds m p b -> body (mk p s) = Ok (mk (p + Z.of_nat w) (f s b))) ->
  aligned B p -> filled_blocks w m p n bs ->
  do_while body (n / Z.of_nat w) (mk p s) = Ok (mk (p + n) (fold_left f bs s)).
Proof.
  intros [k Hk] Hw Hb Ha (H1 & H2 & H3 & H4).
  replace (n / Z.of_nat w) with (Z.of_nat (length bs)) by (rewrite <- H3, Z.div_mul; lia).
  rewrite do_while_iter by (unfold two32; split; nia). rewrite Nat2Z.id.
  rewrite (block_loop m w f mk body (aligned B)); auto.
  - do 2 f_equal. lia.
  - intros q Hq. rewrite Hk. apply aligned_step. exact Hq.
Qed.

Lemma step_mult : exists k, Z.of_nat (vsize B) = k * step. Proof. exists 1. lia. Qed.

Lemma horizontal_max_vec_simd_run m p n bs : aligned B p -> filled_blocks (vsize B) m p n bs ->
  horizontal_max_vec_simd d B m p n =
  horizontal_max B (d_smax d) (d_vmax d) (fold_left (map2 (d_vmax d)) bs (set_vec B (d_lmin d))).
Proof.
  intros Ha H. unfold horizontal_max_vec_simd.
  rewrite (dw_blocks' (vsize B) m (map2 (d_vmax d)) (fun p s => (p, s)) _ p n bs);
    [reflexivity|exact step_mult|apply vsize_pos| |exact Ha|exact H].
  intros q s b Hq Hb Hh. rewrite (vload_holds B m q b Hq Hb Hh). reflexivity.
Qed.

Lemma horizontal_min_vec_simd_run m p n bs : aligned B p -> filled_blocks (vsize B) m p n bs ->
  horizontal_min_vec_simd d B m p n =
  horizontal_min B (d_smin d) (d_vmin d) (fold_left (map2 (d_vmin d)) bs (set_vec B (d_lmin d))).
Proof.
  intros Ha H. unfold horizontal_min_vec_simd.
  rewrite (dw_blocks' (vsize B) m (map2 (d_vmin d)) (fun p s => (p, s)) _ p n bs);
    [reflexivity|exact step_mult|apply vsize_pos| |exact Ha|exact H].
  intros q s b Hq Hb Hh. rewrite (vload_holds B m q b Hq Hb Hh). reflexivity.
Qed.

Lemma horizontal_sum_vec_simd_run m p n bs : aligned B p -> filled_blocks (vsize B) m p n bs ->
  horizontal_sum_vec_simd d c B m p n =
  horizontal_sum c B (d_zero d) (d_add d) (fold_left (map2 (d_add d)) bs (set_vec B (d_zero d))).
Proof.
  intros Ha H. unfold horizontal_sum_vec_simd.
  rewrite (dw_blocks' (vsize B) m (map2 (d_add d)) (fun p s => (p, s)) _ p n bs);
    [reflexivity|exact step_mult|apply vsize_pos| |exact Ha|exact H].
  intros q s b Hq Hb Hh. rewrite (vload_holds B m q b Hq Hb Hh). reflexivity.
Qed.

Lemma horizontal_minmax_vec_simd_run m p n bs : aligned B p -> filled_blocks (vsize B) m p n bs ->
  horizontal_minmax_vec_simd d B m p n =
  (rmin <- horizontal_min B (d_smin d) (d_vmin d) (fold_left (map2 (d_vmin d)) bs (set_vec B (d_lmax d))) ;;
   rmax <- horizontal_max B (d_smax d) (d_vmax d) (fold_left (map2 (d_vmax d)) bs (set_vec B (d_lmin d))) ;;
   Ok (rmin, rmax)).
Proof.
  intros Ha H. unfold horizontal_minmax_vec_simd.
  rewrite (dw_blocks' (vsize B) m (fun st b => (map2 (d_vmax d) (fst st) b, map2 (d_vmin d) (snd st) b))
            (fun p s => (p, fst s, snd s)) _ p n bs (set_vec B (d_lmin d), set_vec B (d_lmax d)));
    [|exact step_mult|apply vsize_pos| |exact Ha|exact H].
  - cbn [bind]. rewrite fold_left_pair. reflexivity.
  - intros q s b Hq Hb Hh. rewrite (vload_holds B m q b Hq Hb Hh). reflexivity.
Qed.

Lemma horizontal_maxsum_vec_simd_run m p n bs : aligned B p -> filled_blocks (vsize B) m p n bs ->
  horizontal_maxsum_vec_simd d c B m p n =
  (rsum <- horizontal_sum c B (d_zero d) (d_add d) (fold_left (map2 (d_add d)) bs (set_vec B (d_zero d))) ;;
   rmax <- horizontal_max B (d_smax d) (d_vmax d) (fold_left (map2 (d_vmax d)) bs (set_vec B (d_lmin d))) ;;
   Ok (rmax, rsum)).
Proof.
  intros Ha H. unfold horizontal_maxsum_vec_simd.
  rewrite (dw_blocks' (vsize B) m (fun st b => (map2 (d_vmax d) (fst st) b, map2 (d_add d) (snd st) b))
            (fun p s => (p, fst s, snd s)) _ p n bs (set_vec B (d_lmin d), set_vec B (d_zero d)));
    [|exact step_mult|apply vsize_pos| |exact Ha|exact H].
  - cbn [bind]. rewrite fold_left_pair. reflexivity.
  - intros q s b Hq Hb Hh. rewrite (vload_holds B m q b Hq Hb Hh). reflexivity.
Qed.

(** * Peak meters *)

(** The four vectors of a block. *)
Definition quarter (k : nat) (b : list A) : list A := firstn (vsize B) (skipn (k * vsize B) b).

Lemma quarter_length k b : (k < 4)%nat -> length b = (4 * vsize B)%nat -> length (quarter k b) = vsize B.
Proof. intros Hk Hb. unfold quarter. rewrite firstn_length, skipn_length. nia. Qed.

Lemma quarters b : length b = (4 * vsize B)%nat -> b = quarter 0 b ++ quarter 1 b ++ quarter 2 b ++ quarter 3 b.
Proof.
  intros Hb. unfold quarter. cbn [Nat.mul skipn].
  assert (Hl : firstn (vsize B) (skipn (3 * vsize B) b) = skipn (3 * vsize B) b).
  { apply firstn_all2. rewrite skipn_length. lia. }
  change (vsize B + (vsize B + (vsize B + 0)))%nat with (3 * vsize B)%nat. rewrite Hl.
  replace (vsize B + (vsize B + 0))%nat with (2 * vsize B)%nat by lia. rewrite Nat.add_0_r.
  assert (G : forall k, skipn (k * vsize B) b = firstn (vsize B) (skipn (k * vsize B) b) ++ skipn (S k * vsize B) b).
  { intros k. rewrite <- (firstn_skipn (vsize B) (skipn (k * vsize B) b)) at 1. f_equal.
    rewrite skipn_add. f_equal. cbn. lia. }
  rewrite <- (G 2%nat). pose proof (G 1%nat) as G1. cbn [Nat.mul] in G1. rewrite Nat.add_0_r in G1.
  replace (2 * vsize B)%nat with (vsize B + vsize B)%nat by lia. rewrite <- G1.
  symmetry. apply firstn_skipn.
Qed.

Lemma load_quarters m p b : aligned B p -> length b = (4 * vsize B)%nat -> holds m p b ->
  vload_aligned B m p = Ok (quarter 0 b) /\ vload_aligned B m (p + step) = Ok (quarter 1 b) /\
  vload_aligned B m (p + 2 * step) = Ok (quarter 2 b) /\ vload_aligned B m (p + 3 * step) = Ok (quarter 3 b).
Proof.
  intros Ha Hb Hh. rewrite (quarters b Hb) in Hh.
  apply holds_app in Hh. destruct Hh as [H0 Hh]. rewrite quarter_length in Hh by (auto; lia).
  apply holds_app in Hh. destruct Hh as [H1 Hh]. rewrite quarter_length in Hh by (auto; lia).
  apply holds_app in Hh. destruct Hh as [H2 H3]. rewrite quarter_length in H3 by (auto; lia).
  assert (Q : forall k, aligned B (p + k * step)) by (intro; apply aligned_step; exact Ha).
  repeat split; apply vload_holds; rewrite ?quarter_length; auto; try lia.
  - rewrite <- (Z.mul_1_l step). apply Q.
  - replace (p + 2 * step) with (p + step + step) by lia. assumption.
  - replace (p + 3 * step) with (p + step + step + step) by lia. assumption.
Qed.

(** Proof auxiliary: absolute values of one register of a block. *)
Definition quarter_abs (b : list A) (k : nat) : list A := map (d_vabs d) (quarter k b).
(** Proof auxiliary: the lane-wise maximum of a block as the loop body computes
    it. *)
Definition block_max (b : list A) : list A :=
  map2 (d_vmax d) (map2 (d_vmax d) (quarter_abs b 0) (quarter_abs b 1))
                  (map2 (d_vmax d) (quarter_abs b 2) (quarter_abs b 3)).

Lemma get_last (v : list A) x : length v = vsize B -> get c B v (vsize B - 1) = Ok (last v x).
Proof.
  intros Hv. destruct B; cbn [vsize] in *;
  repeat (destruct v as [|? v]; cbn in Hv; try discriminate); cbn; try reflexivity.
  destruct (has_sse41 c); reflexivity.
Qed.

Lemma unroll_mult : exists k, Z.of_nat (4 * vsize B) = k * step. Proof. exists 4. lia. Qed.

Lemma peak_vec_simd_run junk m p pk n bs old x0 :
  aligned B p -> filled_blocks (4 * vsize B) m p n bs -> m pk = Some old ->
  exists init, load_first B (d_zero d) junk m pk = Ok init /\
  peak_vec_simd d c B junk m p pk n =
  (r <- horizontal_max B (d_smax d) (d_vmax d)
          (fold_left (fun s b => map2 (d_vmax d) s (block_max b)) bs init) ;;
   Ok (upd m pk r, d_vabs d (last (concat bs) x0))).
Proof.
  intros Ha H Hpk. unfold load_first, load. rewrite Hpk. cbn [bind]. eexists. split; [reflexivity|].
  unfold peak_vec_simd, load_first, load. rewrite Hpk. cbn [bind]. fold (@load A).
  set (init := match B with SSE64 => _ | AVX32 => _ | AVX64 => _ | _ => _ end).
  replace (4 * step) with (Z.of_nat (4 * vsize B)) by lia.
  rewrite (dw_blocks' (4 * vsize B) m (fun st b => (map2 (d_vmax d) (fst st) (block_max b), Some (quarter_abs b 3)))
            (fun p s => (p, fst s, snd s)) _ p n bs (init, None));
    [|exact unroll_mult|pose proof (vsize_pos B); lia| |exact Ha|exact H].
  - cbn [bind].
    rewrite (fold_left_pair (fun s b => map2 (d_vmax d) s (block_max b)) (fun _ b => Some (quarter_abs b 3)) bs init None).
    cbn [fst snd]. rewrite fold_last_opt.
    destruct (horizontal_max B _ _ _) as [r|e]; [|reflexivity]. cbn [bind]. unfold store. rewrite Hpk. cbn [bind].
    destruct H as (H1 & H2 & H3 & H4).
    assert (Hne : bs <> []) by (intros ->; cbn in H3; lia).
    destruct (exists_last Hne) as (bs' & b & ->). rewrite rev_app_distr. cbn [rev app initialised bind].
    apply Forall_app in H2. destruct H2 as [_ H2]. inversion H2 as [|? ? Hb _]; subst.
    rewrite (get_last _ (d_vabs d x0)) by (unfold quarter_abs; rewrite map_length; apply quarter_length; auto).
    cbn [bind]. do 2 f_equal. rewrite concat_app. cbn [concat]. rewrite app_nil_r.
    rewrite (quarters b Hb) at 2. rewrite !app_assoc.
    pose proof (quarter_length 3 b ltac:(lia) Hb) as HQ. pose proof (vsize_pos B) as HB.
    assert (Hq : quarter 3 b <> []) by (intros E; rewrite E in HQ; cbn in HQ; lia).
    destruct (exists_last Hq) as (q' & z & Eq). unfold quarter_abs. rewrite Eq, !app_assoc, map_app. cbn [map].
    rewrite !last_last. reflexivity.
  - intros q s b Hq Hb Hh. destruct (load_quarters m q b Hq Hb Hh) as (L0 & L1 & L2 & L3).
    rewrite L0, L1, L2, L3. reflexivity.
Qed.

(** Proof auxiliary: squares of one register of a block. *)
Definition quarter_sqr (b : list A) (k : nat) : list A := map (fun x => d_mul d x x) (quarter k b).
(** Proof auxiliary: the lane-wise sum of a block as the loop body computes it.
    *)
Definition block_sum (b : list A) : list A :=
  map2 (d_add d) (map2 (d_add d) (map2 (d_add d) (quarter_sqr b 0) (quarter_sqr b 1)) (quarter_sqr b 2)) (quarter_sqr b 3).

Lemma peak_rms_vec_simd_run junk m p pk sq n bs old olds :
  aligned B p -> filled_blocks (4 * vsize B) m p n bs -> m pk = Some old -> m sq = Some olds ->
  exists init inits, load_first B (d_zero d) junk m pk = Ok init /\ load_first B (d_zero d) junk m sq = Ok inits /\
  peak_rms_vec_simd d c B junk m p pk sq n =
  (r <- horizontal_max B (d_smax d) (d_vmax d)
          (fold_left (fun s b => map2 (d_vmax d) s (block_max b)) bs init) ;;
   q <- horizontal_sum c B (d_zero d) (d_add d)
          (fold_left (fun s b => map2 (d_add d) s (block_sum b)) bs inits) ;;
   Ok (upd (upd m pk r) sq q)).
Proof.
  intros Ha H Hpk Hsq. unfold load_first, load. rewrite Hpk, Hsq. cbn [bind]. do 2 eexists. split; [reflexivity|]. split; [reflexivity|].
  unfold peak_rms_vec_simd, load_first, load. rewrite Hpk, Hsq. cbn [bind]. fold (@load A).
  set (init := match B with SSE64 => [old; _] | AVX32 => _ | AVX64 => _ | _ => _ end).
  set (inits := match B with SSE64 => [olds; _] | AVX32 => _ | AVX64 => _ | _ => _ end).
  replace (4 * step) with (Z.of_nat (4 * vsize B)) by lia.
  rewrite (dw_blocks' (4 * vsize B) m
            (fun st b => (map2 (d_vmax d) (fst st) (block_max b), map2 (d_add d) (snd st) (block_sum b)))
            (fun p s => (p, fst s, snd s)) _ p n bs (init, inits));
    [|exact unroll_mult|pose proof (vsize_pos B); lia| |exact Ha|exact H].
  - cbn [bind].
    rewrite (fold_left_pair (fun s b => map2 (d_vmax d) s (block_max b))
               (fun s b => map2 (d_add d) s (block_sum b)) bs init inits).
    cbn [fst snd].
    destruct (horizontal_max B _ _ _) as [r|e]; [|reflexivity]. cbn [bind]. unfold store. rewrite Hpk. cbn [bind].
    destruct (horizontal_sum c B _ _ _) as [q|e]; [|reflexivity]. cbn [bind].
    unfold upd at 1. destruct (Z.eqb_spec sq pk); [reflexivity|]. rewrite Hsq. reflexivity.
  - intros q s b Hq Hb Hh. destruct (load_quarters m q b Hq Hb Hh) as (L0 & L1 & L2 & L3).
    rewrite L0, L1, L2, L3. reflexivity.
Qed.
End Run.
