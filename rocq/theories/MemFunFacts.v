(** The functions of MemFuns.v. *)
From Coq Require Import ZArith List Lia Bool.
From Verif Require Import Base Mem Loop Backend Args Spec LoopFacts MemFacts KaryFacts DriverFacts RampFacts
  FaultFacts DriverClaims OverlapFacts MemFuns BlockFacts.
Import ListNotations.
Local Open Scope Z_scope.

Section Scalar.
Context {A : Type} (ar : arith A).

Lemma store_repeat (m : mem A) dest (x : A) n :
  0 <= n -> accessible m dest n ->
  leaves m (store_list m dest (repeat x (Z.to_nat n))) dest n (fun _ => Some x).
Proof.
  intros Hn Ha.
  destruct (store_list_wr m dest (fun _ => x) (repeat x (Z.to_nat n)) x 0 m) as (m' & E & G).
  - lia.
  - apply meq_wr_0.
  - rewrite repeat_length, Z2Nat.id, Z.add_0_r by lia. exact Ha.
  - intros j Hj. apply nth_repeat.
  - rewrite Z.add_0_r in E. rewrite repeat_length, Z2Nat.id, Z.add_0_l in G by lia.
    eapply leaves_of_wr; [exact E|exact G|reflexivity].
Qed.

Lemma zerovec_ok (m : mem A) dest n :
  0 <= n -> accessible m dest n -> leaves m (zerovec ar m dest n) dest n (fun _ => Some (a_zero ar)).
Proof. apply store_repeat. Qed.

Lemma setvec_ok (m : mem A) dest f n :
  0 < n < 2 ^ 32 -> accessible m dest n -> leaves m (setvec m dest f n) dest n (fun _ => Some f).
Proof.
  intros Hn Ha. unfold setvec.
  match goal with |- context [do_while ?b _ _] => set (body := b) end.
  destruct (swriter body m dest (fun _ => f) (fun J m1 => (m1, dest + Z.of_nat J)) n Hn) as (m' & E & G).
  - intros J m1 HJ Hm. cbn [body].
    destruct (store_next m m1 dest (fun _ => f) n J f Ha HJ Hm eq_refl) as (m2 & E & G).
    exists m2. cbv beta iota delta [body]. rewrite E. cbn [bind]. split; [tup|exact G].
  - cbn [Z.of_nat] in E. rewrite Z.add_0_r in E. rewrite E. cbn [bind].
    eapply leaves_of_wr; [reflexivity|exact G|reflexivity].
Qed.

Lemma set_slope_vec_ok (m : mem A) dest f slope n :
  0 < n < 2 ^ 32 -> accessible m dest n ->
  leaves m (set_slope_vec ar m dest f slope n) dest n (sample ar m (ARamp f slope)).
Proof.
  intros Hn Ha. unfold set_slope_vec.
  match goal with |- context [do_while ?b _ _] => set (body := b) end.
  set (v := fun i => Nat.iter (Z.to_nat i) (fun y => a_add ar y slope) f).
  destruct (swriter body m dest v (fun J m1 => (m1, dest + Z.of_nat J, v (Z.of_nat J))) n Hn) as (m' & E & G).
  - intros J m1 HJ Hm.
    destruct (store_next m m1 dest v n J _ Ha HJ Hm eq_refl) as (m2 & E & G).
    exists m2. cbv beta iota delta [body]. rewrite E. cbn [bind]. split; [|exact G].
    tup. unfold v. rewrite !Nat2Z.id. reflexivity.
  - cbn [Z.of_nat] in E. rewrite Z.add_0_r in E. change (v 0) with f in E. rewrite E. cbn [bind].
    eapply leaves_of_wr; [reflexivity|exact G|reflexivity].
Qed.

Lemma set_exp_vec_ok (m : mem A) dest f curve n :
  0 < n < 2 ^ 32 -> accessible m dest n ->
  leaves m (set_exp_vec ar m dest f curve n) dest n
    (fun i => Some (Nat.iter (Z.to_nat i) (fun y => a_mul ar y curve) f)).
Proof.
  intros Hn Ha. unfold set_exp_vec.
  match goal with |- context [do_while ?b _ _] => set (body := b) end.
  set (v := fun i => Nat.iter (Z.to_nat i) (fun y => a_mul ar y curve) f).
  destruct (swriter body m dest v (fun J m1 => (m1, dest + Z.of_nat J, v (Z.of_nat J))) n Hn) as (m' & E & G).
  - intros J m1 HJ Hm.
    destruct (store_next m m1 dest v n J _ Ha HJ Hm eq_refl) as (m2 & E & G).
    exists m2. cbv beta iota delta [body]. rewrite E. cbn [bind]. split; [|exact G].
    tup. unfold v. rewrite !Nat2Z.id. reflexivity.
  - cbn [Z.of_nat] in E. rewrite Z.add_0_r in E. change (v 0) with f in E. rewrite E. cbn [bind].
    eapply leaves_of_wr; [reflexivity|exact G|reflexivity].
Qed.

Lemma copyvec_ok (m : mem A) dest src n :
  0 <= n -> accessible m dest n -> accessible m src n -> disjoint dest src n ->
  leaves m (copyvec m dest src n) dest n (fun i => m (src + i)).
Proof.
  intros Hn Hd Hs Hx. unfold copyvec.
  replace ((0 <? n) && (dest <? src + n) && (src <? dest + n))%bool with false.
  2:{ symmetry. apply not_true_is_false. intro C. apply andb_prop in C. destruct C as [C C3].
      apply andb_prop in C. destruct C as [C1 C2].
      apply Z.ltb_lt in C1, C2, C3. unfold disjoint in Hx. lia. }
  destruct (Z.eq_dec n 0) as [->|Hn0].
  { cbn. exists m. split; [reflexivity|]. split; [lia|reflexivity]. }
  destruct (Hs 0) as [d _]; [lia|].
  assert (L : load_n (Z.to_nat n) m src
              = Ok (map (fun l => cell d m (src + Z.of_nat l)) (seq 0 (Z.to_nat n)))).
  { apply (load_n_spec _ _ _ _ d); [rewrite map_length, seq_length; reflexivity|].
    intros j Hj. erewrite nth_indep by (rewrite map_length, seq_length; lia).
    rewrite (map_nth (fun l => cell d m (src + Z.of_nat l))), seq_nth by lia. cbn [Nat.add].
    apply (cell_some d m src n); [exact Hs|lia]. }
  rewrite L. cbn [bind].
  match goal with |- context [store_list m dest ?l] => set (ll := l) end.
  destruct (store_list_wr m dest (fun i => cell d m (src + i)) ll d 0 m) as (m' & E & G).
  - lia.
  - apply meq_wr_0.
  - unfold ll. rewrite map_length, seq_length, Z2Nat.id, Z.add_0_r by lia. exact Hd.
  - intros j Hj. unfold ll in *. rewrite map_length, seq_length in Hj.
    erewrite nth_indep by (rewrite map_length, seq_length; lia).
    rewrite (map_nth (fun l => cell d m (src + Z.of_nat l))), seq_nth by lia. reflexivity.
  - rewrite Z.add_0_r in E. unfold ll in G.
    rewrite map_length, seq_length, Z2Nat.id, Z.add_0_l in G by lia.
    eapply leaves_of_wr; [exact E|exact G|]. intros i Hi. apply (cell_some d m src n i Hs Hi).
Unshelve. all: exact O.
Qed.

Lemma addvec_ok (m : mem A) out inp n :
  0 < n < 2 ^ 32 -> accessible m out n -> arg_fit (A := A) m out n (APtr inp) ->
  leaves m (addvec ar m out inp n) out n (fun i => lift2 (a_add ar) (m (out + i)) (m (inp + i))).
Proof.
  intros Hn Ho [Hi Hov]. unfold addvec.
  match goal with |- context [do_while ?b _ _] => set (body := b) end.
  set (d := a_zero ar).
  set (v := fun i => a_add ar (cell d m (out + i)) (cell d m (inp + i))).
  destruct (swriter body m out v (fun J m1 => (m1, out + Z.of_nat J, inp + Z.of_nat J)) n Hn) as (m' & E & G).
  - intros J m1 HJ Hm.
    destruct (store_next m m1 out v n J _ Ho HJ Hm eq_refl) as (m2 & E & G).
    exists m2. cbv beta iota delta [body].
    rewrite (load_next d m m1 out v n J out) by (auto; lia). cbn [bind].
    rewrite (load_next d m m1 out v n J inp) by auto. cbn [bind].
    fold (v (Z.of_nat J)). rewrite E. cbn [bind]. split; [|exact G].
    tup.
  - cbn [Z.of_nat] in E. rewrite !Z.add_0_r in E. rewrite E. cbn [bind].
    eapply leaves_of_wr; [reflexivity|exact G|]. intros i Hii.
    rewrite (cell_some d m out n i Ho Hii), (cell_some d m inp n i Hi Hii). reflexivity.
Qed.

Lemma addvec_scalar_ok (m : mem A) out f n :
  0 < n < 2 ^ 32 -> accessible m out n ->
  leaves m (addvec_scalar ar m out f n) out n (fun i => lift1 (fun x => a_add ar x f) (m (out + i))).
Proof.
  intros Hn Ho. unfold addvec_scalar.
  match goal with |- context [do_while ?b _ _] => set (body := b) end.
  set (d := a_zero ar).
  set (v := fun i => a_add ar (cell d m (out + i)) f).
  destruct (swriter body m out v (fun J m1 => (m1, out + Z.of_nat J)) n Hn) as (m' & E & G).
  - intros J m1 HJ Hm.
    destruct (store_next m m1 out v n J _ Ho HJ Hm eq_refl) as (m2 & E & G).
    exists m2. cbv beta iota delta [body].
    rewrite (load_next d m m1 out v n J out) by (auto; lia). cbn [bind].
    fold (v (Z.of_nat J)). rewrite E. cbn [bind]. split; [|exact G].
    tup.
  - cbn [Z.of_nat] in E. rewrite !Z.add_0_r in E. rewrite E. cbn [bind].
    eapply leaves_of_wr; [reflexivity|exact G|]. intros i Hii.
    rewrite (cell_some d m out n i Ho Hii). reflexivity.
Qed.
End Scalar.

Section Vector.
Context {A : Type} (ar : arith A) (B : backend).
Local Notation vec := (list A).
Local Notation step := (Z.of_nat (vsize B)).
Local Notation V := (vecs_per_loop B).

(** ** setvec *)
Definition set_step (al : bool) (val : vec) (s : mem A * Z) : res (mem A * Z) :=
  let '(m, dst) := s in m <- store_al B al m dst val ;; Ok (m, dst + step).

Lemma setvec_mp_iter al val : forall k m dst,
  iter_res k (set_step al val) (m, dst)
  = rmap (fun m' => (m', dst + Z.of_nat k * step)) (setvec_mp B al k m dst val).
Proof.
  induction k as [|k IH]; intros m dst; cbn [iter_res setvec_mp].
  - cbn. tup.
  - cbn [set_step]. destruct (store_al B al m dst val) as [m0|]; cbn [bind rmap]; [|reflexivity].
    rewrite IH. destruct (setvec_mp B al k m0 (dst + step) val); cbn [rmap]; [|reflexivity].
    tup.
Qed.

Lemma set_iter_ok al x (m : mem A) dest N :
  access_ok B al dest -> accessible m dest (Z.of_nat N * step) ->
  exists m', iter_res N (set_step al (set_vec B x)) (m, dest) = Ok (m', dest + Z.of_nat N * step) /\
             meq m' (wr m dest (Z.of_nat N * step) (fun _ => x)).
Proof.
  intros Ha Hacc.
  destruct (writer step (set_step al (set_vec B x)) m dest (fun _ => x)
              (fun J m1 => (m1, dest + Z.of_nat J * step)) N) as (m' & E & G).
  - intros J m1 HJ Hm.
    destruct (store_al_spec B al m m1 dest (fun _ => x) N J (fun _ => x) Ha Hacc HJ Hm ltac:(reflexivity))
      as (m2 & E & G).
    exists m2. cbn [set_step]. rewrite set_vec_lanesf, E. cbn [bind]. split; [|exact G].
    tup.
  - cbv beta in E. replace (dest + Z.of_nat 0 * step) with dest in E by lia. eauto.
Qed.

Lemma setvec_ct_ok al x (m : mem A) dest k :
  access_ok B al dest -> accessible m dest (Z.of_nat k * step) ->
  leaves m (setvec_mp B al k m dest (set_vec B x)) dest (Z.of_nat k * step) (fun _ => Some x).
Proof.
  intros Ha Hacc. destruct (set_iter_ok al x m dest k Ha Hacc) as (m' & E & G).
  rewrite setvec_mp_iter in E.
  destruct (setvec_mp B al k m dest (set_vec B x)) as [m''|] eqn:E'; cbn [rmap] in E; [|discriminate].
  inversion E; subst. eapply leaves_of_wr; [reflexivity|exact G|reflexivity].
Qed.

Lemma setvec_rt_ok al x (m : mem A) dest n :
  legal_simd_length B n -> access_ok B al dest -> accessible m dest n ->
  leaves m (detail_setvec_simd B al m dest (set_vec B x) n) dest n (fun _ => Some x).
Proof.
  intros Hn Ha Hacc. unfold detail_setvec_simd.
  rewrite (dw_blocks B _ (set_step al (set_vec B x)) n _ Hn).
  - destruct (legal_count B n Hn) as (_ & _ & Hkn). rewrite <- Hkn in Hacc.
    destruct (set_iter_ok al x m dest _ Ha Hacc) as (m' & E & G). rewrite E. cbn [bind].
    rewrite Hkn in G. eapply leaves_of_wr; [reflexivity|exact G|reflexivity].
  - intros [m1 dst]. rewrite setvec_mp_iter. rewrite (per_loop_step B _ eq_refl).
    destruct (setvec_mp B al V m1 dst (set_vec B x)); reflexivity.
Qed.

(** ** set_slope *)
Definition slope_step (vslope : vec) (s : mem A * Z * vec) : res (mem A * Z * vec) :=
  let '(m, dst, vb) := s in m <- vstore_aligned B m dst vb ;; Ok (m, dst + step, vadd ar vb vslope).

Lemma slope_mp_iter vslope : forall k m dst vb,
  iter_res k (slope_step vslope) (m, dst, vb)
  = rmap (fun p => (fst p, dst + Z.of_nat k * step, snd p)) (slope_mp ar B k m dst vb vslope).
Proof.
  induction k as [|k IH]; intros m dst vb; cbn [iter_res slope_mp].
  - cbn. tup.
  - cbn [slope_step]. destruct (vstore_aligned B m dst vb) as [m0|]; cbn [bind rmap]; [|reflexivity].
    rewrite IH. destruct (slope_mp ar B k m0 (dst + step) _ vslope); cbn [rmap]; [|reflexivity].
    tup.
Qed.

(** Proof auxiliary: one register of the exponential ramp. *)
Definition exp_step (vc : vec) (s : mem A * Z * vec) : res (mem A * Z * vec) :=
  let '(m, dst, vb) := s in m <- vstore_aligned B m dst vb ;; Ok (m, dst + step, vmul ar vb vc).

Lemma exp_mp_iter vc : forall k m dst vb,
  iter_res k (exp_step vc) (m, dst, vb)
  = rmap (fun p => (fst p, dst + Z.of_nat k * step, snd p)) (exp_mp ar B k m dst vb vc).
Proof.
  induction k as [|k IH]; intros m dst vb; cbn [iter_res exp_mp].
  - cbn. tup.
  - cbn [exp_step]. destruct (vstore_aligned B m dst vb) as [m0|]; cbn [bind rmap]; [|reflexivity].
    rewrite IH. destruct (exp_mp ar B k m0 (dst + step) _ vc); cbn [rmap]; [|reflexivity].
    tup.
Qed.

(** A ramp whose vectors advance like [v]. *)
Lemma slope_simd_gen (m : mem A) dest f slope n (v : Z -> A) :
  legal_simd_length B n -> aligned B dest -> accessible m dest n ->
  fst (set_slope ar B f slope) = lanesf B (fun l => v (Z.of_nat l)) ->
  (forall i, 0 <= i -> a_add ar (v i) (a_mul ar (a_ofZ ar step) slope) = v (i + step)) ->
  leaves m (set_slope_vec_simd ar B m dest f slope n) dest n (fun i => Some (v i)).
Proof.
  intros Hn Hal Hacc H0 HS. unfold set_slope_vec_simd.
  set (vs := set_vec B (a_mul ar (a_ofZ ar step) slope)).
  rewrite (dw_blocks B _ (slope_step vs) n _ Hn).
  - destruct (legal_count B n Hn) as (_ & _ & Hkn). rewrite <- Hkn in Hacc.
    set (N := Z.to_nat (n / step)) in *.
    destruct (writer step (slope_step vs) m dest v
       (fun J m1 => (m1, dest + Z.of_nat J * step, lanesf B (fun l => v (Z.of_nat J * step + Z.of_nat l)))) N)
      as (m' & E & G).
    + intros J m1 HJ Hm.
      destruct (store_al_spec B true m m1 dest v N J (fun l => v (Z.of_nat J * step + Z.of_nat l))
                  (aligned_access B dest Hal) Hacc HJ Hm ltac:(reflexivity)) as (m2 & E & G).
      exists m2. cbn [slope_step]. rewrite vstore_al_true, E. cbn [bind]. split; [|exact G].
      tup. unfold vadd, vs. rewrite set_vec_lanesf, map2_lanesf.
      apply lanesf_ext. intros l Hl. rewrite HS by lia. f_equal. lia.
    + cbv beta in E. rewrite H0.
      replace (dest + Z.of_nat 0 * step) with dest in E by lia.
      change (fun l : nat => v (Z.of_nat 0 * step + Z.of_nat l)) with (fun l : nat => v (Z.of_nat l)) in E.
      rewrite E. cbn [bind]. rewrite Hkn in G.
      eapply leaves_of_wr; [reflexivity|exact G|reflexivity].
  - intros [[m1 dst] vb]. rewrite slope_mp_iter. rewrite (per_loop_step B _ eq_refl).
    destruct (slope_mp ar B V m1 dst vb vs) as [[? ?]|]; reflexivity.
Qed.

Lemma exp_simd_gen (m : mem A) dest f curve n (v : Z -> A) :
  legal_simd_length B n -> aligned B dest -> accessible m dest n ->
  fst (set_exp ar B f curve) = lanesf B (fun l => v (Z.of_nat l)) ->
  (forall i, 0 <= i -> a_mul ar (v i) (pow_i ar (vsize B) curve) = v (i + step)) ->
  leaves m (set_exp_vec_simd ar B m dest f curve n) dest n (fun i => Some (v i)).
Proof.
  intros Hn Hal Hacc H0 HS. unfold set_exp_vec_simd.
  set (vs := set_vec B (pow_i ar (vsize B) curve)).
  rewrite (dw_blocks B _ (exp_step vs) n _ Hn).
  - destruct (legal_count B n Hn) as (_ & _ & Hkn). rewrite <- Hkn in Hacc.
    set (N := Z.to_nat (n / step)) in *.
    destruct (writer step (exp_step vs) m dest v
       (fun J m1 => (m1, dest + Z.of_nat J * step, lanesf B (fun l => v (Z.of_nat J * step + Z.of_nat l)))) N)
      as (m' & E & G).
    + intros J m1 HJ Hm.
      destruct (store_al_spec B true m m1 dest v N J (fun l => v (Z.of_nat J * step + Z.of_nat l))
                  (aligned_access B dest Hal) Hacc HJ Hm ltac:(reflexivity)) as (m2 & E & G).
      exists m2. cbn [exp_step]. rewrite vstore_al_true, E. cbn [bind]. split; [|exact G].
      tup. unfold vmul, vs. rewrite set_vec_lanesf, map2_lanesf.
      apply lanesf_ext. intros l Hl. rewrite HS by lia. f_equal. lia.
    + cbv beta in E. rewrite H0.
      replace (dest + Z.of_nat 0 * step) with dest in E by lia.
      change (fun l : nat => v (Z.of_nat 0 * step + Z.of_nat l)) with (fun l : nat => v (Z.of_nat l)) in E.
      rewrite E. cbn [bind]. rewrite Hkn in G.
      eapply leaves_of_wr; [reflexivity|exact G|reflexivity].
  - intros [[m1 dst] vb]. rewrite exp_mp_iter. rewrite (per_loop_step B _ eq_refl).
    destruct (exp_mp ar B V m1 dst vb vs) as [[? ?]|]; reflexivity.
Qed.

Lemma set_exp_length f c : length (fst (set_exp ar B f c)) = vsize B.
Proof. destruct B; reflexivity. Qed.

(** *** exact arithmetic *)
Section Exact.
Context (E : exact_arith ar).
Local Infix "+!" := (a_add ar) (at level 50, left associativity).
Local Infix "*!" := (a_mul ar) (at level 40, left associativity).

Lemma mul_ofZ_add x i j : 0 <= i -> 0 <= j ->
  x *! a_ofZ ar (i + j) = x *! a_ofZ ar i +! x *! a_ofZ ar j.
Proof.
  intros Hi Hj. rewrite <- (Z2Nat.id j) by lia. induction (Z.to_nat j) as [|k IH].
  - cbn [Z.of_nat]. rewrite Z.add_0_r, (mul_ofZ_0 ar E), (ex_add_zero ar E). reflexivity.
  - rewrite Nat2Z.inj_succ. unfold Z.succ. rewrite Z.add_assoc.
    rewrite !(ofZ_add_one ar E) by lia. rewrite IH. symmetry. apply (ex_add_assoc ar E).
Qed.

Lemma set_slope_simd_exact (m : mem A) dest f slope n :
  legal_simd_length B n -> aligned B dest -> accessible m dest n ->
  leaves m (set_slope_vec_simd ar B m dest f slope n) dest n
    (fun i => Some (f +! slope *! a_ofZ ar i)).
Proof.
  intros Hn Hal Hacc.
  apply (slope_simd_gen m dest f slope n (fun i => f +! slope *! a_ofZ ar i)); auto.
  - apply (lanesf_inj_ext B _ _ (a_zero ar)); [apply set_slope_length|]. intros j Hj.
    rewrite (set_slope_lanes ar E B) by exact Hj. apply (iter_add_mul ar E).
  - intros i Hi. rewrite mul_ofZ_add by lia. rewrite (ex_mul_comm ar E _ slope).
    symmetry. apply (ex_add_assoc ar E).
Qed.

Lemma power_S c k : power ar c (Z.of_nat (S k)) = power ar c (Z.of_nat k) *! c.
Proof. unfold power. rewrite !Nat2Z.id. reflexivity. Qed.

Lemma iter_mul_power f c k : Nat.iter k (fun y => y *! c) f = f *! power ar c (Z.of_nat k).
Proof.
  induction k as [|k IH].
  - cbn. symmetry. apply (ex_mul_one ar E).
  - rewrite power_S, iterS, IH. symmetry. apply (ex_mul_assoc ar E).
Qed.

Lemma power_add c i j : 0 <= i -> 0 <= j -> power ar c (i + j) = power ar c i *! power ar c j.
Proof.
  intros Hi Hj. rewrite <- (Z2Nat.id j) by lia. induction (Z.to_nat j) as [|k IH].
  - cbn [Z.of_nat]. rewrite Z.add_0_r. unfold power at 3. cbn. symmetry. apply (ex_mul_one ar E).
  - rewrite power_S, (ex_mul_assoc ar E), <- IH. rewrite <- (Z2Nat.id i) by lia.
    rewrite <- !Nat2Z.inj_add, Nat.add_succ_r. apply power_S.
Qed.

Lemma pow_i_power c k : (0 < k)%nat -> pow_i ar k c = power ar c (Z.of_nat k).
Proof.
  induction k as [|k IH]; [lia|]. intros _. destruct k as [|k].
  - change (power ar c (Z.of_nat 1)) with (a_ofZ ar 1 *! c).
    rewrite (ex_mul_comm ar E), (ex_mul_one ar E). reflexivity.
  - change (pow_i ar (S (S k)) c) with (c *! pow_i ar (S k) c).
    rewrite IH by lia. rewrite (ex_mul_comm ar E). symmetry. apply power_S.
Qed.

Lemma set_exp_lanes f c d l : (l < vsize B)%nat ->
  nth l (fst (set_exp ar B f c)) d = Nat.iter l (fun y => y *! c) f.
Proof.
  intros Hl. destruct B; cbn [vsize] in Hl;
    repeat (destruct l as [|l]; [reflexivity|]); lia.
Qed.

Lemma set_exp_next f c : snd (set_exp ar B f c) = f *! power ar c step.
Proof. rewrite <- iter_mul_power. destruct B; reflexivity. Qed.

Lemma set_exp_vec_exact (m : mem A) dest f curve n :
  0 < n < 2 ^ 32 -> accessible m dest n ->
  leaves m (set_exp_vec ar m dest f curve n) dest n (fun i => Some (f *! power ar curve i)).
Proof.
  intros Hn Hacc. eapply leaves_ext; [|apply set_exp_vec_ok; assumption].
  intros i Hi. cbv beta. rewrite iter_mul_power, Z2Nat.id by lia. reflexivity.
Qed.

Lemma set_exp_simd_exact (m : mem A) dest f curve n :
  legal_simd_length B n -> aligned B dest -> accessible m dest n ->
  leaves m (set_exp_vec_simd ar B m dest f curve n) dest n (fun i => Some (f *! power ar curve i)).
Proof.
  intros Hn Hal Hacc.
  apply (exp_simd_gen m dest f curve n (fun i => f *! power ar curve i)); auto.
  - apply (lanesf_inj_ext B _ _ (a_zero ar)); [apply set_exp_length|]. intros j Hj.
    rewrite set_exp_lanes by exact Hj. apply iter_mul_power.
  - intros i Hi. rewrite pow_i_power by apply vsize_pos. rewrite power_add by lia.
    symmetry. apply (ex_mul_assoc ar E).
Qed.
End Exact.

(** ** addvec *)
Definition add_step (s : mem A * Z * Z) : res (mem A * Z * Z) :=
  let '(m, dst, src) := s in
  v1 <- vload_aligned B m dst ;;
  v2 <- vload_aligned B m src ;;
  m <- vstore_aligned B m dst (vadd ar v1 v2) ;;
  Ok (m, dst + step, src + step).

Lemma addvec_mp_iter : forall k m dst src,
  iter_res k add_step (m, dst, src)
  = rmap (fun m' => (m', dst + Z.of_nat k * step, src + Z.of_nat k * step)) (addvec_mp ar B k m dst src).
Proof.
  induction k as [|k IH]; intros m dst src; cbn [iter_res addvec_mp].
  - cbn. tup.
  - cbn [add_step]. destruct (vload_aligned B m dst) as [v1|]; cbn [bind rmap]; [|reflexivity].
    destruct (vload_aligned B m src) as [v2|]; cbn [bind rmap]; [|reflexivity].
    destruct (vstore_aligned B m dst (vadd ar v1 v2)) as [m0|]; cbn [bind rmap]; [|reflexivity].
    rewrite IH. destruct (addvec_mp ar B k m0 (dst + step) (src + step)); cbn [rmap]; [|reflexivity].
    tup.
Qed.

Lemma add_iter_ok (m : mem A) out inp N :
  aligned B out -> aligned B inp ->
  accessible m out (Z.of_nat N * step) -> accessible m inp (Z.of_nat N * step) ->
  out <= inp \/ inp + Z.of_nat N * step <= out ->
  exists m', iter_res N add_step (m, out, inp)
             = Ok (m', out + Z.of_nat N * step, inp + Z.of_nat N * step) /\
    meq m' (wr m out (Z.of_nat N * step)
              (fun i => a_add ar (cell (a_zero ar) m (out + i)) (cell (a_zero ar) m (inp + i)))).
Proof.
  intros Ho Hi Hao Hai Hov. set (d := a_zero ar).
  set (v := fun i => a_add ar (cell d m (out + i)) (cell d m (inp + i))).
  destruct (writer step add_step m out v
              (fun J m1 => (m1, out + Z.of_nat J * step, inp + Z.of_nat J * step)) N) as (m' & E & G).
  - intros J m1 HJ Hm. cbn [add_step]. rewrite !vload_al_true.
    rewrite (vload_next B true d m m1 out v N J J out)
      by (auto using aligned_access; lia). cbn [bind].
    rewrite (vload_next B true d m m1 out v N J J inp)
      by (auto using aligned_access; lia). cbn [bind].
    unfold vadd. rewrite map2_lanesf, vstore_al_true.
    destruct (store_al_spec B true m m1 out v N J (fun l => v (Z.of_nat J * step + Z.of_nat l)))
      as (m2 & E & G); auto using aligned_access.
    exists m2. unfold v in E at 1. rewrite E. cbn [bind]. split; [|exact G]. tup.
  - cbv beta in E. replace (out + Z.of_nat 0 * step) with out in E by lia.
    replace (inp + Z.of_nat 0 * step) with inp in E by lia. eauto.
Qed.

Lemma addvec_ct_ok (m : mem A) out inp k :
  aligned B out -> accessible m out (Z.of_nat k * step) ->
  simd_fit (A := A) B m out (Z.of_nat k * step) (APtr inp) ->
  leaves m (addvec_simd_ct ar B k m out inp) out (Z.of_nat k * step)
    (fun i => lift2 (a_add ar) (m (out + i)) (m (inp + i))).
Proof.
  intros Ho Hao (Hai & Hov & Hi). destruct (add_iter_ok m out inp k Ho Hi Hao Hai Hov) as (m' & E & G).
  rewrite addvec_mp_iter in E. unfold addvec_simd_ct.
  destruct (addvec_mp ar B k m out inp) as [m''|]; cbn [rmap] in E; [|discriminate].
  inversion E; subst. eapply leaves_of_wr; [reflexivity|exact G|]. intros i Hii.
  rewrite (cell_some (a_zero ar) m out _ i Hao Hii), (cell_some (a_zero ar) m inp _ i Hai Hii). reflexivity.
Qed.

Lemma addvec_simd_ok (m : mem A) out inp n :
  legal_simd_length B n -> aligned B out -> accessible m out n ->
  simd_fit (A := A) B m out n (APtr inp) ->
  leaves m (addvec_simd ar B m out inp n) out n
    (fun i => lift2 (a_add ar) (m (out + i)) (m (inp + i))).
Proof.
  intros Hn Ho Hao (Hai & Hov & Hi). unfold addvec_simd.
  rewrite (dw_blocks B _ add_step n _ Hn).
  - destruct (legal_count B n Hn) as (_ & _ & Hkn). cbn [arg_accessible overlap_ok] in *.
    destruct (add_iter_ok m out inp (Z.to_nat (n / step)) Ho Hi) as (m' & E & G);
      try (rewrite Hkn; assumption).
    rewrite E. cbn [bind]. rewrite Hkn in G.
    eapply leaves_of_wr; [reflexivity|exact G|]. intros i Hii.
    rewrite (cell_some (a_zero ar) m out _ i Hao Hii), (cell_some (a_zero ar) m inp _ i Hai Hii). reflexivity.
  - intros [[m1 o] p]. rewrite addvec_mp_iter. rewrite (per_loop_step B _ eq_refl).
    destruct (addvec_mp ar B V m1 o p); reflexivity.
Qed.

(** Proof auxiliary: one register of the addition loop. *)
Definition adds_step (vin : vec) (s : mem A * Z) : res (mem A * Z) :=
  let '(m, dst) := s in
  v1 <- vload_aligned B m dst ;;
  m <- vstore_aligned B m dst (vadd ar v1 vin) ;;
  Ok (m, dst + step).

Lemma adds_mp_iter vin : forall k m dst,
  iter_res k (adds_step vin) (m, dst)
  = rmap (fun m' => (m', dst + Z.of_nat k * step)) (addvec_scalar_mp ar B k m dst vin).
Proof.
  induction k as [|k IH]; intros m dst; cbn [iter_res addvec_scalar_mp].
  - cbn. tup.
  - cbn [adds_step]. destruct (vload_aligned B m dst) as [v1|]; cbn [bind rmap]; [|reflexivity].
    destruct (vstore_aligned B m dst (vadd ar v1 vin)) as [m0|]; cbn [bind rmap]; [|reflexivity].
    rewrite IH. destruct (addvec_scalar_mp ar B k m0 (dst + step) vin); cbn [rmap]; [|reflexivity].
    tup.
Qed.

Lemma adds_iter_ok (m : mem A) out f N :
  aligned B out -> accessible m out (Z.of_nat N * step) ->
  exists m', iter_res N (adds_step (set_vec B f)) (m, out)
             = Ok (m', out + Z.of_nat N * step) /\
    meq m' (wr m out (Z.of_nat N * step)
              (fun i => a_add ar (cell (a_zero ar) m (out + i)) f)).
Proof.
  intros Ho Hao. set (d := a_zero ar).
  set (v := fun i => a_add ar (cell d m (out + i)) f).
  destruct (writer step (adds_step (set_vec B f)) m out v
              (fun J m1 => (m1, out + Z.of_nat J * step)) N) as (m' & E & G).
  - intros J m1 HJ Hm. cbn [adds_step]. rewrite !vload_al_true.
    rewrite (vload_next B true d m m1 out v N J J out)
      by (auto using aligned_access; lia). cbn [bind].
    unfold vadd. rewrite set_vec_lanesf, map2_lanesf, vstore_al_true.
    destruct (store_al_spec B true m m1 out v N J (fun l => v (Z.of_nat J * step + Z.of_nat l)))
      as (m2 & E & G); auto using aligned_access.
    exists m2. unfold v in E at 1. rewrite E. cbn [bind]. split; [|exact G]. tup.
  - cbv beta in E. replace (out + Z.of_nat 0 * step) with out in E by lia. eauto.
Qed.

Lemma addvec_scalar_ct_ok (m : mem A) out f k :
  aligned B out -> accessible m out (Z.of_nat k * step) ->
  leaves m (addvec_scalar_simd_ct ar B k m out f) out (Z.of_nat k * step)
    (fun i => lift1 (fun x => a_add ar x f) (m (out + i))).
Proof.
  intros Ho Hao. destruct (adds_iter_ok m out f k Ho Hao) as (m' & E & G).
  rewrite adds_mp_iter in E. unfold addvec_scalar_simd_ct.
  destruct (addvec_scalar_mp ar B k m out _) as [m''|]; cbn [rmap] in E; [|discriminate].
  inversion E; subst. eapply leaves_of_wr; [reflexivity|exact G|]. intros i Hii.
  rewrite (cell_some (a_zero ar) m out _ i Hao Hii). reflexivity.
Qed.

Lemma addvec_scalar_simd_ok (m : mem A) out f n :
  legal_simd_length B n -> aligned B out -> accessible m out n ->
  leaves m (addvec_scalar_simd ar B m out f n) out n
    (fun i => lift1 (fun x => a_add ar x f) (m (out + i))).
Proof.
  intros Hn Ho Hao. unfold addvec_scalar_simd.
  rewrite (dw_blocks B _ (adds_step (set_vec B f)) n _ Hn).
  - destruct (legal_count B n Hn) as (_ & _ & Hkn).
    destruct (adds_iter_ok m out f (Z.to_nat (n / step)) Ho) as (m' & E & G);
      try (rewrite Hkn; assumption).
    rewrite E. cbn [bind]. rewrite Hkn in G.
    eapply leaves_of_wr; [reflexivity|exact G|]. intros i Hii.
    rewrite (cell_some (a_zero ar) m out _ i Hao Hii). reflexivity.
  - intros [m1 o]. rewrite adds_mp_iter. rewrite (per_loop_step B _ eq_refl).
    destruct (addvec_scalar_mp ar B V m1 o (set_vec B f)); reflexivity.
Qed.
End Vector.
