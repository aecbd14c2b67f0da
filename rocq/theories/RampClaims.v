(** Proofs of the statements of Prop_Ramp.v. *)
From Coq Require Import ZArith Reals List Lia Lra.
From Flocq Require Import Core IEEE754.Binary IEEE754.Bits.
From Verif Require Import Base Mem Loop Backend Args Drivers Float LaneOps FloatOps Spec SpecReduce SpecRamp
  LoopFacts MemFacts KaryFacts DriverFacts RampFacts FaultFacts DriverClaims DriverClaims2 FloatFacts FloatRound RampFloat ExData ExFloat.
Import ListNotations.
Local Open Scope Z_scope.

Lemma C10_exact_ramps_binary_lemma : 
  forall (B : backend) (n : nans (fmt_of B)) (vf : list (F (fmt_of B)) -> list (F (fmt_of B)) -> list (F (fmt_of B))) (f : F (fmt_of B) -> F (fmt_of B) -> F (fmt_of B))
         (m : mem (F (fmt_of B))) (out : Z) (a1 a2 : arg (F (fmt_of B))) (len : Z),
    lanewise2 B vf f ->
    legal_simd_length B len -> aligned B out -> accessible m out len ->
    simd_fit B m out len a1 -> exact_arg B len a1 ->
    simd_fit B m out len a2 -> exact_arg B len a2 ->
    exists r1 r2 : Z -> option (F (fmt_of B)),
      (forall i, 0 <= i < len -> denotes m a1 i (r1 i) /\ denotes m a2 i (r2 i)) /\
      let result := fun i => lift2 f (r1 i) (r2 i) in
      leaves m (binary_vec (farith n) f m out a1 a2 len) out len result /\
      leaves m (binary_vec_simd (farith n) B vf m out a1 a2 len) out len result /\
      leaves m (binary_vec_simd_ct (farith n) B (Z.to_nat (len / Z.of_nat (vsize B))) vf m out a1 a2) out len result.
Proof.
  intros B n vf f m out a1 a2 len Hf Hn Hal Ho H1 E1 H2 E2.
  exists (sample (farith n) m a1), (sample (farith n) m a2). split.
  { intros i Hi. repeat split; apply (exact_denotes n B m len); assumption. }
  cbv zeta. split; [|split].
  - apply C01_foo_vec_maps_binary_lemma; auto; [apply Hn|..]; unfold arg_fit, simd_fit in *; tauto.
  - destruct (legal_bounds B len Hn) as [Hb Hr].
    pose proof (binary_simd_ok (farith n) B vf f m out a1 a2 len Hf Hb Hal) as G. rewrite Hr in G.
    apply G; auto using exact_simd_arg.
  - destruct (vecs_of_legal B len Hn) as [Hk Hkn].
    pose proof (binary_ct_ok (farith n) B vf f m out a1 a2 _ Hf Hk Hal) as G. rewrite Hkn in G.
    apply G; auto using exact_simd_arg.
Qed.

Lemma C10_exact_ramps_ternary_lemma : 
  forall (B : backend) (n : nans (fmt_of B)) (vf : list (F (fmt_of B)) -> list (F (fmt_of B)) -> list (F (fmt_of B)) -> list (F (fmt_of B))) (f : F (fmt_of B) -> F (fmt_of B) -> F (fmt_of B) -> F (fmt_of B))
         (m : mem (F (fmt_of B))) (out : Z) (a1 a2 a3 : arg (F (fmt_of B))) (len : Z),
    lanewise3 B vf f ->
    legal_simd_length B len -> aligned B out -> accessible m out len ->
    simd_fit B m out len a1 -> exact_arg B len a1 ->
    simd_fit B m out len a2 -> exact_arg B len a2 ->
    simd_fit B m out len a3 -> exact_arg B len a3 ->
    exists r1 r2 r3 : Z -> option (F (fmt_of B)),
      (forall i, 0 <= i < len -> denotes m a1 i (r1 i) /\ denotes m a2 i (r2 i) /\ denotes m a3 i (r3 i)) /\
      let result := fun i => lift3 f (r1 i) (r2 i) (r3 i) in
      leaves m (ternary_vec (farith n) f m out a1 a2 a3 len) out len result /\
      leaves m (ternary_vec_simd (farith n) B vf m out a1 a2 a3 len) out len result /\
      leaves m (ternary_vec_simd_ct (farith n) B (Z.to_nat (len / Z.of_nat (vsize B))) vf m out a1 a2 a3) out len result.
Proof.
  intros B n vf f m out a1 a2 a3 len Hf Hn Hal Ho H1 E1 H2 E2 H3 E3.
  exists (sample (farith n) m a1), (sample (farith n) m a2), (sample (farith n) m a3). split.
  { intros i Hi. repeat split; apply (exact_denotes n B m len); assumption. }
  cbv zeta. split; [|split].
  - apply C01_foo_vec_maps_ternary_lemma; auto; [apply Hn|..]; unfold arg_fit, simd_fit in *; tauto.
  - destruct (legal_bounds B len Hn) as [Hb Hr].
    pose proof (ternary_simd_ok (farith n) B vf f m out a1 a2 a3 len Hf Hb Hal) as G. rewrite Hr in G.
    apply G; auto using exact_simd_arg.
  - destruct (vecs_of_legal B len Hn) as [Hk Hkn].
    pose proof (ternary_ct_ok (farith n) B vf f m out a1 a2 a3 _ Hf Hk Hal) as G. rewrite Hkn in G.
    apply G; auto using exact_simd_arg.
Qed.

Lemma C10_exact_ramps_quaternary_lemma : 
  forall (B : backend) (n : nans (fmt_of B)) (vf : list (F (fmt_of B)) -> list (F (fmt_of B)) -> list (F (fmt_of B)) -> list (F (fmt_of B)) -> list (F (fmt_of B))) (f : F (fmt_of B) -> F (fmt_of B) -> F (fmt_of B) -> F (fmt_of B) -> F (fmt_of B))
         (m : mem (F (fmt_of B))) (out : Z) (a1 a2 a3 a4 : arg (F (fmt_of B))) (len : Z),
    lanewise4 B vf f ->
    legal_simd_length B len -> aligned B out -> accessible m out len ->
    simd_fit B m out len a1 -> exact_arg B len a1 ->
    simd_fit B m out len a2 -> exact_arg B len a2 ->
    simd_fit B m out len a3 -> exact_arg B len a3 ->
    simd_fit B m out len a4 -> exact_arg B len a4 ->
    exists r1 r2 r3 r4 : Z -> option (F (fmt_of B)),
      (forall i, 0 <= i < len -> denotes m a1 i (r1 i) /\ denotes m a2 i (r2 i) /\ denotes m a3 i (r3 i) /\ denotes m a4 i (r4 i)) /\
      let result := fun i => lift4 f (r1 i) (r2 i) (r3 i) (r4 i) in
      leaves m (quaternary_vec (farith n) f m out a1 a2 a3 a4 len) out len result /\
      leaves m (quaternary_vec_simd (farith n) B vf m out a1 a2 a3 a4 len) out len result /\
      leaves m (quaternary_vec_simd_ct (farith n) B (Z.to_nat (len / Z.of_nat (vsize B))) vf m out a1 a2 a3 a4) out len result.
Proof.
  intros B n vf f m out a1 a2 a3 a4 len Hf Hn Hal Ho H1 E1 H2 E2 H3 E3 H4 E4.
  exists (sample (farith n) m a1), (sample (farith n) m a2), (sample (farith n) m a3), (sample (farith n) m a4). split.
  { intros i Hi. repeat split; apply (exact_denotes n B m len); assumption. }
  cbv zeta. split; [|split].
  - apply C01_foo_vec_maps_quaternary_lemma; auto; [apply Hn|..]; unfold arg_fit, simd_fit in *; tauto.
  - destruct (legal_bounds B len Hn) as [Hb Hr].
    pose proof (quaternary_simd_ok (farith n) B vf f m out a1 a2 a3 a4 len Hf Hb Hal) as G. rewrite Hr in G.
    apply G; auto using exact_simd_arg.
  - destruct (vecs_of_legal B len Hn) as [Hk Hkn].
    pose proof (quaternary_ct_ok (farith n) B vf f m out a1 a2 a3 a4 _ Hf Hk Hal) as G. rewrite Hkn in G.
    apply G; auto using exact_simd_arg.
Qed.

Lemma C10_integer_ramps_are_exact_lemma : 
  forall (B : backend) (len b s : Z),
    (forall i, 0 <= i < len -> Z.abs (b + i * s) <= 2 ^ sig_bits (fmt_of B)) -> Z.abs b <= 2 ^ sig_bits (fmt_of B) ->
    Z.abs s <= 2 ^ sig_bits (fmt_of B) -> Z.abs (lanes B * s) <= 2 ^ 24 ->
    exact_ramp B len (f_ofZ (fmt_of B) b) (f_ofZ (fmt_of B) s).
Proof.
  intros B len b s Hi Hb Hs Hl. exists 0, b, s.
  assert (G : forall k, Z.abs k <= 2 ^ sig_bits (fmt_of B) -> on_grid 0 (f_ofZ (fmt_of B) k) k /\ not_minus_zero (f_ofZ (fmt_of B) k)).
  { intros k Hk. rewrite sig_bits_prec in Hk. destruct (f_lit_exact (t := fmt_of B) k 0 Hk) as (A1 & A2 & A3).
    - destruct B; vm_compute; discriminate.
    - destruct B; reflexivity.
    - split; [split; [exact A1|exact A2]|]. intros Z0. change (sgn (f_lit (fmt_of B) k 0) = false). rewrite A3.
      change (f_ofZ (fmt_of B) k) with (f_lit (fmt_of B) k 0) in Z0. rewrite A2 in Z0. apply Z.ltb_ge.
      rewrite Rmult_1_r in Z0. apply eq_IZR in Z0. lia. }
  split; [destruct B; cbn; lia|]. split; [apply G; exact Hb|]. split; [apply G; exact Hs|]. split; [apply G; exact Hb|].
  split; [exact Hi|]. split.
  - etransitivity; [exact Hl|]. destruct B; vm_compute; discriminate.
  - destruct (f_lit_exact (t := F32) (lanes B * s) 0) as (A1 & A2 & _); [exact Hl|discriminate|reflexivity|].
    exists (f_lit F32 (lanes B * s) 0). auto.
Qed.

Lemma C10_negative_zero_refuted_lemma : 
  exists base slope : F F32,
    let m := block 0 64 (fun _ => f_ofZ F32 1) in
    on_grid 0 base 0 /\ on_grid 0 slope 1 /\
    cell_bits' (binary_vec (farith (n0 F32)) (fun _ y => y) m 16 (APtr 16) (ARamp base slope) 16) 16 = Some 0x80000000 /\
    cell_bits' (binary_vec_simd (farith (n0 F32)) GEN32 (fun _ y => y) m 16 (APtr 16) (ARamp base slope) 16) 16 = Some 0.
Proof.
  exists (fneg (f_ofZ F32 0)), (f_ofZ F32 1). cbv zeta.
  split; [split; [reflexivity|cbn; lra]|]. split; [|split; vm_compute; reflexivity].
  destruct (f_lit_exact (t := F32) 1 0) as (A1 & A2 & _); [vm_compute; discriminate..|reflexivity|]. split; assumption.
Qed.

Lemma C11_second_vector_is_wrong_lemma : 
  forall (n : nans F64) (B : backend) (m : mem (F F64)) (slope : F F64) (e s : Z) v1 w1 v2 w2,
    fmt_of B = F64 -> usable_grid F64 e -> on_grid e slope s -> Z.abs (lanes B * s) <= 2 ^ sig_bits F64 ->
    ~ is_a_float (IZR (lanes B) * val slope) ->
    varg_consume (farith n) B m (wrap_vector_arg (farith n) B (ARamp (f_ofZ F64 0) slope)) = Ok (v1, w1) ->
    varg_consume (farith n) B m w1 = Ok (v2, w2) ->
    exists y, nth_error v2 0 = Some y /\ val y <> (IZR (lanes B) * val slope)%R.
Proof.
  intros. eapply double_ramp_wrong; eassumption.
Qed.

Lemma C11_exact_again_lemma : 
  forall (n : nans F64) (B : backend) (m : mem (F F64)) (len : Z) (base slope : F F64) (i : Z) d J l,
    fmt_of B = F64 -> lanes B <= len -> exact_ramp B len base slope ->
    (l < vsize B)%nat -> i = Z.of_nat J * lanes B + Z.of_nat l -> i < len ->
    let vector := Nat.iter J (fun r => match r with
                                       | Ok (_, w) => varg_consume (farith n) B m w
                                       | Fault e => Fault e end)
                    (varg_consume (farith n) B m (wrap_vector_arg (farith n) B (ARamp base slope))) in
    exists v w, vector = Ok (v, w) /\ isfin (nth l v d) = true /\ val (nth l v d) = (val base + IZR i * val slope)%R.
Proof.
  intros n B m len base slope i d J l HB Hlen Hr Hl -> Hi. cbv zeta.
  rewrite lanes_vsize' in Hi |- *.
  assert (E : exists w, Nat.iter J (fun r => match r with Ok (_, w) => varg_consume (farith n) B m w | Fault e => Fault e end)
            (varg_consume (farith n) B m (wrap_vector_arg (farith n) B (ARamp base slope)))
          = Ok (vchunk (farith n) B d m (wrap_vector_arg (farith n) B (ARamp base slope)) J, w)
       /\ match w with VRamp dt sl => dt = vchunk (farith n) B d m (wrap_vector_arg (farith n) B (ARamp base slope)) (S J)
                                    /\ sl = set_vec B (f_narrow n (snd (set_slope (farith n) B base slope))) | _ => False end).
  { clear. cbn [wrap_vector_arg]. destruct (set_slope (farith n) B base slope) as [dat inc]. cbn [snd vchunk].
    induction J as [|J IH].
    - eexists. split; [reflexivity|]. cbn. auto.
    - destruct IH as (w & E & Hw). rewrite iterS, E. destruct w as [| |dt sl]; try contradiction. destruct Hw as [-> ->].
      eexists. split; [reflexivity|]. split; [|reflexivity]. rewrite (iterS _ (S J)). reflexivity. }
  destruct E as (w & E & _). do 2 eexists. split; [exact E|].
  rewrite (exact_ramp_lanes n B m len base slope Hlen Hr d J l Hl Hi).
  assert (0 <= Z.of_nat J * Z.of_nat (vsize B) + Z.of_nat l) by lia.
  destruct (exact_denotes n B m len (ARamp base slope) _ (conj H Hi) Hr) as (y & Ey & F1 & F2 & F3).
  unfold sval. rewrite Ey. auto.
Qed.

Lemma C11_simd_equals_scalar_refuted_lemma : 
  exists base slope : F F64,
    let m := block 0 32 (fun _ => f_ofZ F64 1) in
    on_grid 0 base 0 /\ on_grid 0 slope (2 ^ 24 + 1) /\
    cell_bits' (binary_vec (farith (n0 F64)) (fun _ y => y) m 8 (APtr 8) (ARamp base slope) 8) 10
      = Some (bits (f_ofZ F64 (2 * (2 ^ 24 + 1)))) /\
    cell_bits' (binary_vec_simd (farith (n0 F64)) SSE64 (fun _ y => y) m 8 (APtr 8) (ARamp base slope) 8) 10
      = Some (bits (f_ofZ F64 (2 ^ 25))).
Proof.
  exists (f_ofZ F64 0), (f_ofZ F64 (2 ^ 24 + 1)). cbv zeta.
  split; [apply zero_grid|]. split; [|split; vm_compute; reflexivity].
  destruct (f_lit_exact (t := F64) (2 ^ 24 + 1) 0) as (A1 & A2 & _); [vm_compute; discriminate..|reflexivity|]. split; assumption.
Qed.
