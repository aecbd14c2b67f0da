(** pan2: two output buffers. *)
From Coq Require Import ZArith List Lia Bool.
From Verif Require Import Base Mem Loop Backend Args Spec LoopFacts MemFacts KaryFacts DriverFacts RampFacts
  DriverClaims MemFuns Pan BlockFacts MemFunFacts.
Import ListNotations.
Local Open Scope Z_scope.

Lemma wr_comm {A} (m : mem A) a P u b Q w n :
  disjoint a b n -> P <= n -> Q <= n ->
  meq (wr (wr m a P u) b Q w) (wr (wr m b Q w) a P u).
Proof.
  intros [H|H] HP HQ x; unfold wr;
  destruct (Z.leb_spec a x), (Z.ltb_spec x (a + P)), (Z.leb_spec b x), (Z.ltb_spec x (b + Q));
  cbn [andb]; try reflexivity; lia.
Qed.

Lemma meq_trans {A} (m1 m2 m3 : mem A) : meq m1 m2 -> meq m2 m3 -> meq m1 m3.
Proof. intros H1 H2 a. rewrite H1. apply H2. Qed.
Lemma wr_meq {A} (m m' : mem A) a P u : meq m m' -> meq (wr m a P u) (wr m' a P u).
Proof. intros H x. unfold wr. rewrite H. reflexivity. Qed.

Lemma wr_accessible {A} (m : mem A) a P u q n : accessible m q n -> accessible (wr m a P u) q n.
Proof. intros H i Hi. unfold wr. destruct (_ && _)%bool; eauto. Qed.

Section Two.
Context {A S : Type} (w : Z) (stp : S -> res S) (m : mem A) (out0 out1 : Z) (v0 v1 : Z -> A)
  (st : nat -> mem A -> S).

Lemma writer2 N :
  (forall J m1, (J < N)%nat ->
     meq m1 (wr (wr m out0 (Z.of_nat J * w) v0) out1 (Z.of_nat J * w) v1) ->
     exists m2, stp (st J m1) = Ok (st (Datatypes.S J) m2) /\
       meq m2 (wr (wr m out0 (Z.of_nat (Datatypes.S J) * w) v0) out1 (Z.of_nat (Datatypes.S J) * w) v1)) ->
  exists m', iter_res N stp (st O m) = Ok (st N m') /\
             meq m' (wr (wr m out0 (Z.of_nat N * w) v0) out1 (Z.of_nat N * w) v1).
Proof.
  intros H.
  destruct (iter_res_inv stp (fun J s => exists m1, s = st J m1 /\
              meq m1 (wr (wr m out0 (Z.of_nat J * w) v0) out1 (Z.of_nat J * w) v1)) N) with (s := st O m)
    as (s' & E & m' & -> & G).
  - intros J s HJ (m1 & -> & Hm). destruct (H J m1 HJ Hm) as (m2 & E & G). eauto.
  - exists m. split; [reflexivity|]. cbn [Z.of_nat Z.mul].
    intro a. rewrite !wr_out by lia. reflexivity.
  - eauto.
Qed.
End Two.

Lemma leaves_both_of_wr {A} (m m' : mem A) r out0 out1 n v0 v1 vo0 vo1 :
  disjoint out0 out1 n ->
  r = Ok m' -> meq m' (wr (wr m out0 n v0) out1 n v1) ->
  (forall i, 0 <= i < n -> vo0 i = Some (v0 i)) ->
  (forall i, 0 <= i < n -> vo1 i = Some (v1 i)) ->
  leaves_both m r out0 out1 n vo0 vo1.
Proof.
  intros Hd Hr Hm H0 H1. exists m'. split; [exact Hr|]. split.
  - intros i Hi. rewrite !Hm, H0, H1 by exact Hi.
    rewrite (wr_out _ out1) by (unfold disjoint in Hd; lia). rewrite !wr_in by lia.
    repeat split; try reflexivity; discriminate.
  - intros a Ha Hb. rewrite Hm, !wr_out by assumption. reflexivity.
Qed.

Section Scalar.
Context {A : Type} (ar : arith A).
Local Notation d := (a_zero ar).

(** One iteration, factors [g0 i], [g1 i] at sample i. *)
Lemma pan_scalar_step (m m1 : mem A) out0 out1 inp n (g0 g1 : Z -> A) J :
  disjoint out0 out1 n -> accessible m out0 n -> accessible m out1 n ->
  arg_fit (A := A) m out0 n (APtr inp) -> arg_fit (A := A) m out1 n (APtr inp) ->
  Z.of_nat J < n ->
  let v0 := fun i => a_mul ar (cell d m (inp + i)) (g0 i) in
  let v1 := fun i => a_mul ar (cell d m (inp + i)) (g1 i) in
  meq m1 (wr (wr m out0 (Z.of_nat J) v0) out1 (Z.of_nat J) v1) ->
  exists sig m2 m3,
    load m1 (inp + Z.of_nat J) = Ok sig /\
    store m1 (out0 + Z.of_nat J) (a_mul ar sig (g0 (Z.of_nat J))) = Ok m2 /\
    store m2 (out1 + Z.of_nat J) (a_mul ar sig (g1 (Z.of_nat J))) = Ok m3 /\
    meq m3 (wr (wr m out0 (Z.of_nat J + 1) v0) out1 (Z.of_nat J + 1) v1).
Proof.
  intros Hd H0 H1 [Hi Ho0] [_ Ho1] HJ v0 v1 Hm. cbn [arg_accessible overlap_ok] in *.
  exists (cell d m (inp + Z.of_nat J)).
  assert (L : load m1 (inp + Z.of_nat J) = Ok (cell d m (inp + Z.of_nat J))).
  { unfold load. rewrite Hm, !wr_out by lia. rewrite (cell_some d m inp n) by (auto; lia). reflexivity. }
  destruct (store_next (wr m out1 (Z.of_nat J) v1) m1 out0 v0 n J (v0 (Z.of_nat J))) as (m2 & E2 & G2).
  { apply wr_accessible. exact H0. } { exact HJ. }
  { eapply meq_trans; [exact Hm|]. apply (wr_comm m _ _ _ _ _ _ n Hd); lia. }
  { reflexivity. }
  destruct (store_next (wr m out0 (Z.of_nat J + 1) v0) m2 out1 v1 n J (v1 (Z.of_nat J))) as (m3 & E3 & G3).
  { apply wr_accessible. exact H1. } { exact HJ. }
  { eapply meq_trans; [exact G2|]. apply (wr_comm m _ _ _ _ _ _ n); [|lia|lia].
    unfold disjoint in *. lia. }
  { reflexivity. }
  exists m2, m3. auto.
Qed.

Lemma pan2_slope_ok (m : mem A) out0 out1 inp f0 s0 f1 s1 n :
  0 < n < 2 ^ 32 -> disjoint out0 out1 n -> accessible m out0 n -> accessible m out1 n ->
  arg_fit (A := A) m out0 n (APtr inp) -> arg_fit (A := A) m out1 n (APtr inp) ->
  leaves_both m (pan2_slope_vec ar m out0 out1 inp f0 s0 f1 s1 n) out0 out1 n
    (fun i => lift2 (a_mul ar) (m (inp + i)) (sample ar m (ARamp f0 s0) i))
    (fun i => lift2 (a_mul ar) (m (inp + i)) (sample ar m (ARamp f1 s1) i)).
Proof.
  intros Hn Hd H0 H1 Hf0 Hf1. unfold pan2_slope_vec.
  match goal with |- context [do_while ?b _ _] => set (body := b) end.
  set (g0 := fun i => Nat.iter (Z.to_nat i) (fun y => a_add ar y s0) f0).
  set (g1 := fun i => Nat.iter (Z.to_nat i) (fun y => a_add ar y s1) f1).
  set (v0 := fun i => a_mul ar (cell d m (inp + i)) (g0 i)).
  set (v1 := fun i => a_mul ar (cell d m (inp + i)) (g1 i)).
  rewrite do_while_iter by (rewrite two32_eq; lia).
  destruct (writer2 1 body m out0 out1 v0 v1
     (fun J m1 => (m1, out0 + Z.of_nat J, out1 + Z.of_nat J, inp + Z.of_nat J,
                   g0 (Z.of_nat J), g1 (Z.of_nat J))) (Z.to_nat n)) as (m' & E & G).
  - intros J m1 HJ Hm. rewrite !Z.mul_1_r in *.
    destruct (pan_scalar_step m m1 out0 out1 inp n g0 g1 J) as (sig & m2 & m3 & E1 & E2 & E3 & G3); auto; [lia|].
    exists m3. cbv beta iota delta [body]. rewrite E1. cbn [bind]. rewrite E2. cbn [bind].
    rewrite E3. cbn [bind]. split.
    + unfold g0, g1. rewrite !Nat2Z.id. tup.
    + intro a. rewrite G3. replace (Z.of_nat (S J)) with (Z.of_nat J + 1) by lia. reflexivity.
  - cbv beta in E. cbn [Z.of_nat] in E. rewrite !Z.add_0_r in E.
    change (g0 0) with f0 in E. change (g1 0) with f1 in E. rewrite E. cbn [bind].
    rewrite !Z.mul_1_r, !Z2Nat.id in G by lia.
    eapply leaves_both_of_wr; [exact Hd|reflexivity|exact G| |];
      intros i Hi; rewrite (cell_some d m inp n) by (auto; apply Hf0); reflexivity.
Qed.

Lemma pan2_ok (m : mem A) out0 out1 inp f0 f1 n :
  0 < n < 2 ^ 32 -> disjoint out0 out1 n -> accessible m out0 n -> accessible m out1 n ->
  arg_fit (A := A) m out0 n (APtr inp) -> arg_fit (A := A) m out1 n (APtr inp) ->
  leaves_both m (pan2_vec ar m out0 out1 inp f0 f1 n) out0 out1 n
    (fun i => lift1 (fun x => a_mul ar x f0) (m (inp + i)))
    (fun i => lift1 (fun x => a_mul ar x f1) (m (inp + i))).
Proof.
  intros Hn Hd H0 H1 Hf0 Hf1. unfold pan2_vec.
  match goal with |- context [do_while ?b _ _] => set (body := b) end.
  set (v0 := fun i => a_mul ar (cell d m (inp + i)) f0).
  set (v1 := fun i => a_mul ar (cell d m (inp + i)) f1).
  rewrite do_while_iter by (rewrite two32_eq; lia).
  destruct (writer2 1 body m out0 out1 v0 v1
     (fun J m1 => (m1, out0 + Z.of_nat J, out1 + Z.of_nat J, inp + Z.of_nat J)) (Z.to_nat n)) as (m' & E & G).
  - intros J m1 HJ Hm. rewrite !Z.mul_1_r in *.
    destruct (pan_scalar_step m m1 out0 out1 inp n (fun _ => f0) (fun _ => f1) J)
      as (sig & m2 & m3 & E1 & E2 & E3 & G3); auto; [lia|].
    exists m3. cbv beta iota delta [body]. rewrite E1. cbn [bind]. rewrite E2. cbn [bind].
    rewrite E3. cbn [bind]. split; [tup|].
    intro a. rewrite G3. replace (Z.of_nat (S J)) with (Z.of_nat J + 1) by lia. reflexivity.
  - cbv beta in E. cbn [Z.of_nat] in E. rewrite !Z.add_0_r in E. rewrite E. cbn [bind].
    rewrite !Z.mul_1_r, !Z2Nat.id in G by lia.
    eapply leaves_both_of_wr; [exact Hd|reflexivity|exact G| |];
      intros i Hi; rewrite (cell_some d m inp n) by (auto; apply Hf0); reflexivity.
Qed.
End Scalar.

Section Vector.
Context {A : Type} (ar : arith A) (B : backend).
Local Notation vec := (list A).
Local Notation step := (Z.of_nat (vsize B)).
Local Notation V := (vecs_per_loop B).
Local Notation d := (a_zero ar).

(** Proof auxiliary: one register of the panning loop with ramps. *)
Definition pan_step (vs0 vs1 : vec) (s : mem A * Z * Z * Z * vec * vec) : res (mem A * Z * Z * Z * vec * vec) :=
  let '(m, out0, out1, inp, f0, f1) := s in
  vin <- vload_aligned B m inp ;;
  m <- vstore_aligned B m out0 (vmul ar vin f0) ;;
  m <- vstore_aligned B m out1 (vmul ar vin f1) ;;
  Ok (m, out0 + step, out1 + step, inp + step, vadd ar f0 vs0, vadd ar f1 vs1).

(** Proof auxiliary: one register of the panning loop with constant factors. *)
Definition panc_step (f0 f1 : vec) (s : mem A * Z * Z * Z) : res (mem A * Z * Z * Z) :=
  let '(m, out0, out1, inp) := s in
  vin <- vload_aligned B m inp ;;
  m <- vstore_aligned B m out0 (vmul ar vin f0) ;;
  m <- vstore_aligned B m out1 (vmul ar vin f1) ;;
  Ok (m, out0 + step, out1 + step, inp + step).

Lemma pan2_slope_mp_iter vs0 vs1 : forall k m out0 out1 inp f0 f1,
  iter_res k (pan_step vs0 vs1) (m, out0, out1, inp, f0, f1)
  = rmap (fun p => (fst (fst p), out0 + Z.of_nat k * step, out1 + Z.of_nat k * step,
                    inp + Z.of_nat k * step, snd (fst p), snd p))
      (pan2_slope_mp ar B k m out0 out1 inp f0 vs0 f1 vs1).
Proof.
  induction k as [|k IH]; intros m out0 out1 inp f0 f1; cbn [iter_res pan2_slope_mp].
  - cbn. tup.
  - cbn [pan_step]. destruct (vload_aligned B m inp) as [vin|]; cbn [bind rmap]; [|reflexivity].
    destruct (vstore_aligned B m out0 _) as [m0|]; cbn [bind rmap]; [|reflexivity].
    destruct (vstore_aligned B m0 out1 _) as [m1|]; cbn [bind rmap]; [|reflexivity].
    rewrite IH. destruct (pan2_slope_mp _ _ _ _ _ _ _ _ _ _ _) as [[[? ?] ?]|]; cbn [rmap]; [|reflexivity].
    tup.
Qed.

Lemma pan2_mp_iter f0 f1 : forall k m out0 out1 inp,
  iter_res k (panc_step f0 f1) (m, out0, out1, inp)
  = rmap (fun m' => (m', out0 + Z.of_nat k * step, out1 + Z.of_nat k * step,
                    inp + Z.of_nat k * step))
      (pan2_mp ar B k m out0 out1 inp f0 f1).
Proof.
  induction k as [|k IH]; intros m out0 out1 inp; cbn [iter_res pan2_mp].
  - cbn. tup.
  - cbn [panc_step]. destruct (vload_aligned B m inp) as [vin|]; cbn [bind rmap]; [|reflexivity].
    destruct (vstore_aligned B m out0 _) as [m0|]; cbn [bind rmap]; [|reflexivity].
    destruct (vstore_aligned B m0 out1 _) as [m1|]; cbn [bind rmap]; [|reflexivity].
    rewrite IH. destruct (pan2_mp _ _ _ _ _ _ _ _ _) as [?|]; cbn [rmap]; [|reflexivity].
    tup.
Qed.

Section Fit.
Context (m : mem A) (out0 out1 inp : Z) (N : nat) (g0 g1 : Z -> A).
Local Notation n := (Z.of_nat N * step).
Context (Hd : disjoint out0 out1 n) (A0 : aligned B out0) (A1 : aligned B out1)
  (H0 : accessible m out0 n) (H1 : accessible m out1 n)
  (F0 : simd_fit (A := A) B m out0 n (APtr inp)) (F1 : simd_fit (A := A) B m out1 n (APtr inp)).
Local Notation v0 := (fun i => a_mul ar (cell d m (inp + i)) (g0 i)).
Local Notation v1 := (fun i => a_mul ar (cell d m (inp + i)) (g1 i)).
Local Notation gv g J := (lanesf B (fun l => g (Z.of_nat J * step + Z.of_nat l))).

Lemma pan_vec_step m1 J : (J < N)%nat ->
  meq m1 (wr (wr m out0 (Z.of_nat J * step) v0) out1 (Z.of_nat J * step) v1) ->
  exists vin m2 m3,
    vload_aligned B m1 (inp + Z.of_nat J * step) = Ok vin /\
    vstore_aligned B m1 (out0 + Z.of_nat J * step) (vmul ar vin (gv g0 J)) = Ok m2 /\
    vstore_aligned B m2 (out1 + Z.of_nat J * step) (vmul ar vin (gv g1 J)) = Ok m3 /\
    meq m3 (wr (wr m out0 (Z.of_nat (S J) * step) v0) out1 (Z.of_nat (S J) * step) v1).
Proof using Hd A0 A1 H0 H1 F0 F1.
  intros HJ Hm. pose proof (vsize_pos B) as HB.
  destruct F0 as (Hi & Ho0 & Ai). destruct F1 as (_ & Ho1 & _).
  cbn [arg_accessible overlap_ok arg_aligned] in *.
  exists (lanesf B (fun l => cell d m (inp + (Z.of_nat J * step + Z.of_nat l)))).
  assert (L : vload_aligned B m1 (inp + Z.of_nat J * step)
              = Ok (lanesf B (fun l => cell d m (inp + (Z.of_nat J * step + Z.of_nat l))))).
  { rewrite vload_al_true. apply load_al_spec; [apply access_ok_step, aligned_access, Ai|].
    intros l Hl. rewrite Hm, !wr_out by nia. rewrite <- Z.add_assoc.
    apply (cell_some d m inp n); [exact Hi|nia]. }
  unfold vmul. rewrite !map2_lanesf, !vstore_al_true.
  destruct (store_al_spec B true (wr m out1 (Z.of_nat J * step) v1) m1 out0 v0 N J
             (fun l => v0 (Z.of_nat J * step + Z.of_nat l))) as (m2 & E2 & G2).
  { apply aligned_access, A0. } { apply wr_accessible. exact H0. } { exact HJ. }
  { eapply meq_trans; [exact Hm|]. apply (wr_comm m _ _ _ _ _ _ n Hd); nia. }
  { reflexivity. }
  destruct (store_al_spec B true (wr m out0 (Z.of_nat (S J) * step) v0) m2 out1 v1 N J
             (fun l => v1 (Z.of_nat J * step + Z.of_nat l))) as (m3 & E3 & G3).
  { apply aligned_access, A1. } { apply wr_accessible. exact H1. } { exact HJ. }
  { eapply meq_trans; [exact G2|]. apply (wr_comm m _ _ _ _ _ _ n); [|nia|nia].
    unfold disjoint in *. lia. }
  { reflexivity. }
  exists m2, m3. auto.
Qed.

Lemma pan_iter_ok vs0 vs1 :
  (forall J, vadd ar (gv g0 J) vs0 = gv g0 (S J)) ->
  (forall J, vadd ar (gv g1 J) vs1 = gv g1 (S J)) ->
  exists m', iter_res N (pan_step vs0 vs1) (m, out0, out1, inp, gv g0 O, gv g1 O)
             = Ok (m', out0 + n, out1 + n, inp + n, gv g0 N, gv g1 N) /\
             meq m' (wr (wr m out0 n v0) out1 n v1).
Proof using Hd A0 A1 H0 H1 F0 F1.
  intros S0 S1.
  destruct (writer2 step (pan_step vs0 vs1) m out0 out1 v0 v1
    (fun J m1 => (m1, out0 + Z.of_nat J * step, out1 + Z.of_nat J * step, inp + Z.of_nat J * step,
                  gv g0 J, gv g1 J)) N) as (m' & E & G).
  - intros J m1 HJ Hm. destruct (pan_vec_step m1 J HJ Hm) as (vin & m2 & m3 & E1 & E2 & E3 & G3).
    exists m3. cbn [pan_step]. rewrite E1. cbn [bind]. rewrite E2. cbn [bind]. rewrite E3. cbn [bind].
    rewrite S0, S1. split; [tup|exact G3].
  - exists m'. split; [|exact G]. rewrite <- E. cbv beta. f_equal. tup.
Qed.
End Fit.

Lemma panc_iter_ok (m : mem A) out0 out1 inp N f0 f1 :
  let n := Z.of_nat N * step in
  disjoint out0 out1 n -> aligned B out0 -> aligned B out1 ->
  accessible m out0 n -> accessible m out1 n ->
  simd_fit (A := A) B m out0 n (APtr inp) -> simd_fit (A := A) B m out1 n (APtr inp) ->
  exists m', iter_res N (panc_step (set_vec B f0) (set_vec B f1)) (m, out0, out1, inp)
             = Ok (m', out0 + n, out1 + n, inp + n) /\
             meq m' (wr (wr m out0 n (fun i => a_mul ar (cell d m (inp + i)) f0)) out1 n
                        (fun i => a_mul ar (cell d m (inp + i)) f1)).
Proof.
  intros n Hd A0 A1 H0 H1 F0 F1.
  destruct (writer2 step (panc_step (set_vec B f0) (set_vec B f1)) m out0 out1
    (fun i => a_mul ar (cell d m (inp + i)) f0) (fun i => a_mul ar (cell d m (inp + i)) f1)
    (fun J m1 => (m1, out0 + Z.of_nat J * step, out1 + Z.of_nat J * step, inp + Z.of_nat J * step)) N)
    as (m' & E & G).
  - intros J m1 HJ Hm.
    destruct (pan_vec_step m out0 out1 inp N (fun _ => f0) (fun _ => f1) Hd A0 A1 H0 H1 F0 F1 m1 J HJ Hm)
      as (vin & m2 & m3 & E1 & E2 & E3 & G3).
    exists m3. cbn [panc_step]. rewrite !set_vec_lanesf, E1. cbn [bind]. rewrite E2. cbn [bind]. rewrite E3. cbn [bind].
    split; [tup|exact G3].
  - exists m'. split; [|exact G]. unfold n. rewrite <- E. cbv beta. f_equal. tup.
Qed.

Lemma pan2_ct_ok (m : mem A) out0 out1 inp k f0 f1 :
  let n := Z.of_nat k * step in
  disjoint out0 out1 n -> aligned B out0 -> aligned B out1 ->
  accessible m out0 n -> accessible m out1 n ->
  simd_fit (A := A) B m out0 n (APtr inp) -> simd_fit (A := A) B m out1 n (APtr inp) ->
  leaves_both m (pan2_vec_simd_ct ar B k m out0 out1 inp f0 f1) out0 out1 n
    (fun i => lift1 (fun x => a_mul ar x f0) (m (inp + i)))
    (fun i => lift1 (fun x => a_mul ar x f1) (m (inp + i))).
Proof.
  intros n Hd A0 A1 H0 H1 F0 F1.
  destruct (panc_iter_ok m out0 out1 inp k f0 f1 Hd A0 A1 H0 H1 F0 F1) as (m' & E & G).
  rewrite pan2_mp_iter in E. unfold pan2_vec_simd_ct.
  destruct (pan2_mp _ _ _ _ _ _ _ _ _) as [m''|]; cbn [rmap] in E; [|discriminate].
  inversion E; subst.
  eapply leaves_both_of_wr; [exact Hd|reflexivity|exact G| |];
    intros i Hi; rewrite (cell_some d m inp n) by (auto; apply F0); reflexivity.
Qed.

Lemma pan2_simd_ok (m : mem A) out0 out1 inp n f0 f1 :
  legal_simd_length B n ->
  disjoint out0 out1 n -> aligned B out0 -> aligned B out1 ->
  accessible m out0 n -> accessible m out1 n ->
  simd_fit (A := A) B m out0 n (APtr inp) -> simd_fit (A := A) B m out1 n (APtr inp) ->
  leaves_both m (pan2_vec_simd ar B m out0 out1 inp f0 f1 n) out0 out1 n
    (fun i => lift1 (fun x => a_mul ar x f0) (m (inp + i)))
    (fun i => lift1 (fun x => a_mul ar x f1) (m (inp + i))).
Proof.
  intros Hn Hd A0 A1 H0 H1 F0 F1. unfold pan2_vec_simd.
  rewrite (dw_blocks B _ (panc_step (set_vec B f0) (set_vec B f1)) n _ Hn).
  - destruct (legal_count B n Hn) as (_ & _ & Hkn).
    destruct (panc_iter_ok m out0 out1 inp (Z.to_nat (n / step)) f0 f1) as (m' & E & G);
      try (rewrite Hkn; assumption); auto.
    rewrite Hkn in *. rewrite E. cbn [bind].
    eapply leaves_both_of_wr; [exact Hd|reflexivity|exact G| |];
      intros i Hi; rewrite (cell_some d m inp n) by (auto; apply F0); reflexivity.
  - intros [[[m1 o0] o1] p]. rewrite pan2_mp_iter. rewrite (per_loop_step B _ eq_refl).
    destruct (pan2_mp _ _ _ _ _ _ _ _ _) as [?|]; reflexivity.
Qed.

Section Exact.
Context (E : exact_arith ar).
Local Notation ramp f s := (fun i => a_add ar f (a_mul ar s (a_ofZ ar i))).

Lemma ramp_step f s b J :
  vadd ar (lanesf B (fun l => ramp f s (Z.of_nat J * step + Z.of_nat l)))
          (set_vec B (snd (set_slope ar B b s)))
  = lanesf B (fun l => ramp f s (Z.of_nat (S J) * step + Z.of_nat l)).
Proof.
  unfold vadd. rewrite set_vec_lanesf, map2_lanesf. apply lanesf_ext. intros l Hl.
  rewrite (set_slope_inc_mul ar E B).
  replace (Z.of_nat (S J) * step + Z.of_nat l) with (Z.of_nat J * step + Z.of_nat l + step) by lia.
  rewrite (mul_ofZ_add ar E s (Z.of_nat J * step + Z.of_nat l)) by lia.
  symmetry. apply (ex_add_assoc ar E).
Qed.

Lemma ramp_first f s :
  fst (set_slope ar B f s) = lanesf B (fun l => ramp f s (Z.of_nat 0 * step + Z.of_nat l)).
Proof.
  apply (lanesf_inj_ext B _ _ (a_zero ar)); [apply set_slope_length|]. intros j Hj.
  rewrite (set_slope_lanes ar E B) by exact Hj. apply (iter_add_mul ar E).
Qed.

Lemma pan2_slope_ct_ok (m : mem A) out0 out1 inp k f0 s0 f1 s1 :
  let n := Z.of_nat k * step in
  disjoint out0 out1 n -> aligned B out0 -> aligned B out1 ->
  accessible m out0 n -> accessible m out1 n ->
  simd_fit (A := A) B m out0 n (APtr inp) -> simd_fit (A := A) B m out1 n (APtr inp) ->
  leaves_both m (pan2_slope_vec_simd_ct ar B k m out0 out1 inp f0 s0 f1 s1) out0 out1 n
    (fun i => lift1 (fun x => a_mul ar x (ramp f0 s0 i)) (m (inp + i)))
    (fun i => lift1 (fun x => a_mul ar x (ramp f1 s1 i)) (m (inp + i))).
Proof.
  intros n Hd A0 A1 H0 H1 F0 F1. unfold pan2_slope_vec_simd_ct.
  pose proof (ramp_step f0 s0 f0) as R0. pose proof (ramp_step f1 s1 f1) as R1.
  pose proof (ramp_first f0 s0) as I0. pose proof (ramp_first f1 s1) as I1.
  destruct (set_slope ar B f0 s0) as [vf0 i0]. destruct (set_slope ar B f1 s1) as [vf1 i1]. cbn [fst snd] in *.
  destruct (pan_iter_ok m out0 out1 inp k (ramp f0 s0) (ramp f1 s1) Hd A0 A1 H0 H1 F0 F1 _ _ R0 R1)
    as (m' & E' & G).
  rewrite <- I0, <- I1, pan2_slope_mp_iter in E'.
  destruct (pan2_slope_mp _ _ _ _ _ _ _ _ _ _ _) as [[[m'' ?] ?]|]; cbn [rmap] in E'; [|discriminate].
  inversion E'; subst. cbn [bind].
  eapply leaves_both_of_wr; [exact Hd|reflexivity|exact G| |];
    intros i Hi; rewrite (cell_some d m inp n) by (auto; apply F0); reflexivity.
Qed.

Lemma pan2_slope_simd_ok (m : mem A) out0 out1 inp n f0 s0 f1 s1 :
  legal_simd_length B n ->
  disjoint out0 out1 n -> aligned B out0 -> aligned B out1 ->
  accessible m out0 n -> accessible m out1 n ->
  simd_fit (A := A) B m out0 n (APtr inp) -> simd_fit (A := A) B m out1 n (APtr inp) ->
  leaves_both m (pan2_slope_vec_simd ar B m out0 out1 inp f0 s0 f1 s1 n) out0 out1 n
    (fun i => lift1 (fun x => a_mul ar x (ramp f0 s0 i)) (m (inp + i)))
    (fun i => lift1 (fun x => a_mul ar x (ramp f1 s1 i)) (m (inp + i))).
Proof.
  intros Hn Hd A0 A1 H0 H1 F0 F1. unfold pan2_slope_vec_simd.
  pose proof (ramp_step f0 s0 f0) as R0. pose proof (ramp_step f1 s1 f1) as R1.
  pose proof (ramp_first f0 s0) as I0. pose proof (ramp_first f1 s1) as I1.
  destruct (set_slope ar B f0 s0) as [vf0 i0]. destruct (set_slope ar B f1 s1) as [vf1 i1]. cbn [fst snd] in *.
  rewrite (dw_blocks B _ (pan_step (set_vec B i0) (set_vec B i1)) n _ Hn).
  - destruct (legal_count B n Hn) as (_ & _ & Hkn).
    destruct (pan_iter_ok m out0 out1 inp (Z.to_nat (n / step)) (ramp f0 s0) (ramp f1 s1))
      with (vs0 := set_vec B i0) (vs1 := set_vec B i1) as (m' & E' & G);
      try (rewrite Hkn; assumption); auto.
    rewrite <- I0, <- I1 in E'. rewrite Hkn in *. rewrite E'. cbn [bind].
    eapply leaves_both_of_wr; [exact Hd|reflexivity|exact G| |];
      intros i Hi; rewrite (cell_some d m inp n) by (auto; apply F0); reflexivity.
  - intros [[[[[m1 o0] o1] p] w0] w1]. rewrite pan2_slope_mp_iter. rewrite (per_loop_step B _ eq_refl).
    destruct (pan2_slope_mp _ _ _ _ _ _ _ _ _ _ _) as [[[? ?] ?]|]; reflexivity.
Qed.
End Exact.
End Vector.
