(** Proofs of the statements of Prop_Blocks.v. *)
From Coq Require Import ZArith Reals List Lia Bool Permutation.
From Flocq Require Import Core IEEE754.Binary IEEE754.Bits.
From Verif Require Import
  Base Mem Loop Backend Args Drivers MemFuns Pan Lanes Float LaneOps FloatOps Spec SpecBlocks LoopFacts MemFacts KaryFacts DriverFacts BlockRun Confine ExData ExFloat.
Import ListNotations.
Local Open Scope Z_scope.

Lemma C73_unary_vec_in_blocks_lemma : 
  forall (A : Type) (f : A -> A) (m : mem A) out inp lens, blocks lens ->
    in_blocks (fun off n m => unary_vec f m (out + off) (inp + off) n) 0 lens m = unary_vec f m out inp (total lens).
Proof.
  intros A f m out inp lens H.
  destruct lens as [|n l]; [destruct H; congruence|]. apply unary_blocks; exact H.
Qed.

Lemma C73_binary_vec_in_blocks_lemma : 
  forall (A : Type) (ar : arith A) (f : A -> A -> A) (m : mem A) out (a1 a2 : arg A) lens, blocks lens ->
    in_blocks (fun off n m => binary_vec ar f m (out + off) (advanced ar a1 off) (advanced ar a2 off) n) 0 lens m
    = binary_vec ar f m out a1 a2 (total lens).
Proof.
  intros A ar f m out a1 a2 lens H. apply binary_blocks. exact H.
Qed.

Lemma C73_ternary_vec_in_blocks_lemma : 
  forall (A : Type) (ar : arith A) (f : A -> A -> A -> A) (m : mem A) out (a1 a2 a3 : arg A) lens, blocks lens ->
    in_blocks (fun off n m => ternary_vec ar f m (out + off) (advanced ar a1 off) (advanced ar a2 off) (advanced ar a3 off) n) 0 lens m
    = ternary_vec ar f m out a1 a2 a3 (total lens).
Proof.
  intros A ar f m out a1 a2 a3 lens H. apply ternary_blocks. exact H.
Qed.

Lemma C73_quaternary_vec_in_blocks_lemma : 
  forall (A : Type) (ar : arith A) (f : A -> A -> A -> A -> A) (m : mem A) out (a1 a2 a3 a4 : arg A) lens, blocks lens ->
    in_blocks (fun off n m => quaternary_vec ar f m (out + off) (advanced ar a1 off) (advanced ar a2 off) (advanced ar a3 off) (advanced ar a4 off) n) 0 lens m
    = quaternary_vec ar f m out a1 a2 a3 a4 (total lens).
Proof.
  intros A ar f m out a1 a2 a3 a4 lens H. apply quaternary_blocks. exact H.
Qed.

Lemma C73_set_slope_vec_in_blocks_lemma : 
  forall (A : Type) (ar : arith A) (m : mem A) dest start slope lens, blocks lens ->
    in_blocks (fun off n m => set_slope_vec ar m (dest + off) (Nat.iter (Z.to_nat off) (fun y => a_add ar y slope) start) slope n) 0 lens m
    = set_slope_vec ar m dest start slope (total lens).
Proof.
  intros. apply slope_blocks. assumption.
Qed.

Lemma C73_set_exp_vec_in_blocks_lemma : 
  forall (A : Type) (ar : arith A) (m : mem A) dest start curve lens, blocks lens ->
    in_blocks (fun off n m => set_exp_vec ar m (dest + off) (Nat.iter (Z.to_nat off) (fun y => a_mul ar y curve) start) curve n) 0 lens m
    = set_exp_vec ar m dest start curve (total lens).
Proof.
  intros. apply exp_blocks. assumption.
Qed.

Lemma C73_unary_vec_simd_in_blocks_lemma : 
  forall (A : Type) (ar : arith A) (B : backend) (f : list A -> list A) (m : mem A) out inp lens, blocks_of (loop_unit B) lens ->
    in_blocks (fun off n m => unary_vec_simd ar B f m (out + off) (inp + off) n) 0 lens m = unary_vec_simd ar B f m out inp (total lens).
Proof.
  intros. apply unary_simd_blocks. assumption.
Qed.

Lemma C73_binary_vec_simd_in_blocks_lemma : 
  forall (A : Type) (ar : arith A) (B : backend) (f : list A -> list A -> list A) (m : mem A) out (a1 a2 : arg A) lens,
    Forall steady [a1; a2] -> blocks_of (loop_unit B) lens ->
    in_blocks (fun off n m => binary_vec_simd ar B f m (out + off) (advanced ar a1 off) (advanced ar a2 off) n) 0 lens m
    = binary_vec_simd ar B f m out a1 a2 (total lens).
Proof.
  intros A ar B f m out a1 a2 lens HF H. apply binary_simd_blocks; [|exact H]. eapply Forall_impl; [|exact HF]. intros x Hx. left. exact Hx.
Qed.

Lemma C73_ternary_vec_simd_in_blocks_lemma : 
  forall (A : Type) (ar : arith A) (B : backend) (f : list A -> list A -> list A -> list A) (m : mem A) out (a1 a2 a3 : arg A) lens,
    Forall steady [a1; a2; a3] -> blocks_of (loop_unit B) lens ->
    in_blocks (fun off n m => ternary_vec_simd ar B f m (out + off) (advanced ar a1 off) (advanced ar a2 off) (advanced ar a3 off) n) 0 lens m
    = ternary_vec_simd ar B f m out a1 a2 a3 (total lens).
Proof.
  intros A ar B f m out a1 a2 a3 lens HF H. apply ternary_simd_blocks; [|exact H]. eapply Forall_impl; [|exact HF]. intros x Hx. left. exact Hx.
Qed.

Lemma C73_quaternary_vec_simd_in_blocks_lemma : 
  forall (A : Type) (ar : arith A) (B : backend) (f : list A -> list A -> list A -> list A -> list A) (m : mem A) out (a1 a2 a3 a4 : arg A) lens,
    Forall steady [a1; a2; a3; a4] -> blocks_of (loop_unit B) lens ->
    in_blocks (fun off n m => quaternary_vec_simd ar B f m (out + off) (advanced ar a1 off) (advanced ar a2 off) (advanced ar a3 off) (advanced ar a4 off) n) 0 lens m
    = quaternary_vec_simd ar B f m out a1 a2 a3 a4 (total lens).
Proof.
  intros A ar B f m out a1 a2 a3 a4 lens HF H. apply quaternary_simd_blocks; [|exact H]. eapply Forall_impl; [|exact HF]. intros x Hx. left. exact Hx.
Qed.

Lemma C73_binary_ramps_in_blocks_lemma : 
  forall (A : Type) (ar : arith A) (B : backend) (f : list A -> list A -> list A) (m : mem A) out (a1 a2 : arg A) lens,
    exact_arith ar -> blocks_of (loop_unit B) lens ->
    in_blocks (fun off n m => binary_vec_simd ar B f m (out + off) (advanced ar a1 off) (advanced ar a2 off) n) 0 lens m
    = binary_vec_simd ar B f m out a1 a2 (total lens).
Proof.
  intros A ar B f m out a1 a2 lens HE H. apply binary_simd_blocks; [|exact H]. repeat (apply Forall_cons; [right; exact HE|]). apply Forall_nil.
Qed.

Lemma C73_ternary_ramps_in_blocks_lemma : 
  forall (A : Type) (ar : arith A) (B : backend) (f : list A -> list A -> list A -> list A) (m : mem A) out (a1 a2 a3 : arg A) lens,
    exact_arith ar -> blocks_of (loop_unit B) lens ->
    in_blocks (fun off n m => ternary_vec_simd ar B f m (out + off) (advanced ar a1 off) (advanced ar a2 off) (advanced ar a3 off) n) 0 lens m
    = ternary_vec_simd ar B f m out a1 a2 a3 (total lens).
Proof.
  intros A ar B f m out a1 a2 a3 lens HE H. apply ternary_simd_blocks; [|exact H]. repeat (apply Forall_cons; [right; exact HE|]). apply Forall_nil.
Qed.

Lemma C73_quaternary_ramps_in_blocks_lemma : 
  forall (A : Type) (ar : arith A) (B : backend) (f : list A -> list A -> list A -> list A -> list A) (m : mem A) out (a1 a2 a3 a4 : arg A) lens,
    exact_arith ar -> blocks_of (loop_unit B) lens ->
    in_blocks (fun off n m => quaternary_vec_simd ar B f m (out + off) (advanced ar a1 off) (advanced ar a2 off) (advanced ar a3 off) (advanced ar a4 off) n) 0 lens m
    = quaternary_vec_simd ar B f m out a1 a2 a3 a4 (total lens).
Proof.
  intros A ar B f m out a1 a2 a3 a4 lens HE H. apply quaternary_simd_blocks; [|exact H]. repeat (apply Forall_cons; [right; exact HE|]). apply Forall_nil.
Qed.

Lemma C73_simd_ramp_blocks_refuted_lemma : 
  exists base slope : F F32, let m := block 0 64 (fun _ => f_ofZ F32 1) in let ar := farith (n0 F32) in
    isfin base = true /\ isfin slope = true /\ blocks_of (loop_unit SSE32) [16; 16] /\
    cell_bits' (binary_vec_simd ar SSE32 (fun _ y => y) m 16 (APtr 16) (ARamp base slope) 32) 35 = Some 1072902963 /\
    cell_bits' (in_blocks (fun off n m => binary_vec_simd ar SSE32 (fun _ y => y) m (16 + off)
      (advanced ar (APtr 16) off) (advanced ar (ARamp base slope) off) n) 0 [16; 16] m) 35 = Some 1072902966.
Proof.
  exists (f_ofZ F32 0), (f_lit F32 13421773 (-27)). cbv zeta. split; [vm_compute; reflexivity|]. split; [vm_compute; reflexivity|].
  split; [|split; vm_compute; reflexivity].
  split; [repeat split; [discriminate|repeat constructor]|]. repeat constructor; apply Z.mod_divide; try discriminate; reflexivity.
Qed.

Lemma C73_recomputed_start_refuted_lemma : 
  exists start slope : F F32, let m := block 0 64 (fun _ => f_ofZ F32 1) in let ar := farith (n0 F32) in
    isfin start = true /\ isfin slope = true /\ blocks [16; 16] /\
    cell_bits' (set_slope_vec ar m 16 start slope 32) 32 = Some 1070386383 /\
    cell_bits' (in_blocks (fun off n m =>
      set_slope_vec ar m (16 + off) (a_add ar start (a_mul ar (a_ofZ ar off) slope)) slope n) 0 [16; 16] m) 32 = Some 1070386381.
Proof.
  exists (f_ofZ F32 0), (f_lit F32 13421773 (-27)). cbv zeta. split; [vm_compute; reflexivity|]. split; [vm_compute; reflexivity|].
  split; [|split; vm_compute; reflexivity]. repeat split; [discriminate|repeat constructor].
Qed.

Lemma C73_partial_units_refuted_lemma : 
  exists (m : mem Z), let ar := zarith in blocks [24; 24] /\
    match unary_vec_simd ar SSE32 (map Z.opp) m 0 64 (total [24; 24]) with Ok m' => m' 16 = Some (-6400) | _ => False end /\
    match in_blocks (fun off n m => unary_vec_simd ar SSE32 (map Z.opp) m (0 + off) (64 + off) n) 0 [24; 24] m with
    | Ok m' => m' 16 = Some 256 | _ => False end.
Proof.
  exists (block 0 128 (fun a => a * a)). cbv zeta. split; [repeat split; [discriminate|repeat constructor]|].
  split; [vm_compute; reflexivity|]. vm_compute; reflexivity.
Qed.

Lemma C74_unary_vec_lemma : 
  forall (A : Type) (ar : arith A) (f : A -> A) out inp n,
    0 < n < 2 ^ 32 ->
    confined (fun m : mem A => unary_vec f m out inp n) (range inp n) (range out n).
Proof.
  intros. apply (unary_confined ar). assumption.
Qed.

Lemma C74_binary_vec_lemma : 
  forall (A : Type) (ar : arith A) (f : A -> A -> A) out (a1 a2 : arg A) n,
    0 < n < 2 ^ 32 ->
    confined (fun m : mem A => binary_vec ar f m out a1 a2 n) (fun a => arg_range a1 n a \/ arg_range a2 n a) (range out n).
Proof.
  intros. apply binary_confined. assumption.
Qed.

Lemma C74_ternary_vec_lemma : 
  forall (A : Type) (ar : arith A) (f : A -> A -> A -> A) out (a1 a2 a3 : arg A) n,
    0 < n < 2 ^ 32 ->
    confined (fun m : mem A => ternary_vec ar f m out a1 a2 a3 n) (fun a => arg_range a1 n a \/ arg_range a2 n a \/ arg_range a3 n a) (range out n).
Proof.
  intros. apply ternary_confined. assumption.
Qed.

Lemma C74_quaternary_vec_lemma : 
  forall (A : Type) (ar : arith A) (f : A -> A -> A -> A -> A) out (a1 a2 a3 a4 : arg A) n,
    0 < n < 2 ^ 32 ->
    confined (fun m : mem A => quaternary_vec ar f m out a1 a2 a3 a4 n) (fun a => arg_range a1 n a \/ arg_range a2 n a \/ arg_range a3 n a \/ arg_range a4 n a) (range out n).
Proof.
  intros. apply quaternary_confined. assumption.
Qed.

Lemma C74_unary_vec_simd_lemma : 
  forall (A : Type) (ar : arith A) (B : backend) (f : list A -> list A) out inp n,
    sized1 B f -> in_place B out -> in_place B inp -> loop_unit B <= n < 2 ^ 32 ->
    confined (fun m : mem A => unary_vec_simd ar B f m out inp n) (range inp (n)) (range out n).
Proof.
  intros. apply unary_simd_confined; assumption.
Qed.

Lemma C74_unary_vec_simd_ct_lemma : 
  forall (A : Type) (ar : arith A) (B : backend) (k : nat) (f : list A -> list A) out inp,
    sized1 B f -> in_place B out -> in_place B inp -> (0 < k)%nat ->
    confined (fun m : mem A => unary_vec_simd_ct ar B k f m out inp) (range inp (Z.of_nat k * Z.of_nat (vsize B))) (range out (Z.of_nat k * Z.of_nat (vsize B))).
Proof.
  intros. apply unary_ct_confined; assumption.
Qed.

Lemma C74_binary_vec_simd_lemma : 
  forall (A : Type) (ar : arith A) (B : backend) (f : list A -> list A -> list A) out (a1 a2 : arg A) n,
    sized2 B f -> in_place B out -> arg_in_place B a1 -> arg_in_place B a2 -> loop_unit B <= n < 2 ^ 32 ->
    confined (fun m : mem A => binary_vec_simd ar B f m out a1 a2 n) (fun a => arg_range a1 (n) a \/ arg_range a2 (n) a) (range out n).
Proof.
  intros. apply binary_simd_confined; assumption.
Qed.

Lemma C74_binary_vec_simd_ct_lemma : 
  forall (A : Type) (ar : arith A) (B : backend) (k : nat) (f : list A -> list A -> list A) out (a1 a2 : arg A),
    sized2 B f -> in_place B out -> arg_in_place B a1 -> arg_in_place B a2 -> (0 < k)%nat ->
    confined (fun m : mem A => binary_vec_simd_ct ar B k f m out a1 a2) (fun a => arg_range a1 (Z.of_nat k * Z.of_nat (vsize B)) a \/ arg_range a2 (Z.of_nat k * Z.of_nat (vsize B)) a) (range out (Z.of_nat k * Z.of_nat (vsize B))).
Proof.
  intros. apply binary_ct_confined; assumption.
Qed.

Lemma C74_ternary_vec_simd_lemma : 
  forall (A : Type) (ar : arith A) (B : backend) (f : list A -> list A -> list A -> list A) out (a1 a2 a3 : arg A) n,
    sized3 B f -> in_place B out -> arg_in_place B a1 -> arg_in_place B a2 -> arg_in_place B a3 -> loop_unit B <= n < 2 ^ 32 ->
    confined (fun m : mem A => ternary_vec_simd ar B f m out a1 a2 a3 n) (fun a => arg_range a1 (n) a \/ arg_range a2 (n) a \/ arg_range a3 (n) a) (range out n).
Proof.
  intros. apply ternary_simd_confined; assumption.
Qed.

Lemma C74_ternary_vec_simd_ct_lemma : 
  forall (A : Type) (ar : arith A) (B : backend) (k : nat) (f : list A -> list A -> list A -> list A) out (a1 a2 a3 : arg A),
    sized3 B f -> in_place B out -> arg_in_place B a1 -> arg_in_place B a2 -> arg_in_place B a3 -> (0 < k)%nat ->
    confined (fun m : mem A => ternary_vec_simd_ct ar B k f m out a1 a2 a3) (fun a => arg_range a1 (Z.of_nat k * Z.of_nat (vsize B)) a \/ arg_range a2 (Z.of_nat k * Z.of_nat (vsize B)) a \/ arg_range a3 (Z.of_nat k * Z.of_nat (vsize B)) a) (range out (Z.of_nat k * Z.of_nat (vsize B))).
Proof.
  intros. apply ternary_ct_confined; assumption.
Qed.

Lemma C74_quaternary_vec_simd_lemma : 
  forall (A : Type) (ar : arith A) (B : backend) (f : list A -> list A -> list A -> list A -> list A) out (a1 a2 a3 a4 : arg A) n,
    sized4 B f -> in_place B out -> arg_in_place B a1 -> arg_in_place B a2 -> arg_in_place B a3 -> arg_in_place B a4 -> loop_unit B <= n < 2 ^ 32 ->
    confined (fun m : mem A => quaternary_vec_simd ar B f m out a1 a2 a3 a4 n) (fun a => arg_range a1 (n) a \/ arg_range a2 (n) a \/ arg_range a3 (n) a \/ arg_range a4 (n) a) (range out n).
Proof.
  intros. apply quaternary_simd_confined; assumption.
Qed.

Lemma C74_quaternary_vec_simd_ct_lemma : 
  forall (A : Type) (ar : arith A) (B : backend) (k : nat) (f : list A -> list A -> list A -> list A -> list A) out (a1 a2 a3 a4 : arg A),
    sized4 B f -> in_place B out -> arg_in_place B a1 -> arg_in_place B a2 -> arg_in_place B a3 -> arg_in_place B a4 -> (0 < k)%nat ->
    confined (fun m : mem A => quaternary_vec_simd_ct ar B k f m out a1 a2 a3 a4) (fun a => arg_range a1 (Z.of_nat k * Z.of_nat (vsize B)) a \/ arg_range a2 (Z.of_nat k * Z.of_nat (vsize B)) a \/ arg_range a3 (Z.of_nat k * Z.of_nat (vsize B)) a \/ arg_range a4 (Z.of_nat k * Z.of_nat (vsize B)) a) (range out (Z.of_nat k * Z.of_nat (vsize B))).
Proof.
  intros. apply quaternary_ct_confined; assumption.
Qed.

Lemma C74_zerovec_lemma : 
  forall (A : Type) (ar : arith A) dest n,
    0 <= n ->
    confined (fun m : mem A => zerovec ar m dest n) (fun _ => False) (range dest n).
Proof.
  intros. apply zerovec_confined; assumption.
Qed.

Lemma C74_setvec_lemma : 
  forall (A : Type) dest (f : A) n,
    0 < n < 2 ^ 32 ->
    confined (fun m : mem A => setvec m dest f n) (fun _ => False) (range dest n).
Proof.
  intros. apply setvec_confined; assumption.
Qed.

Lemma C74_set_slope_vec_lemma : 
  forall (A : Type) (ar : arith A) dest (f slope : A) n,
    0 < n < 2 ^ 32 ->
    confined (fun m : mem A => set_slope_vec ar m dest f slope n) (fun _ => False) (range dest n).
Proof.
  intros. apply set_slope_confined; assumption.
Qed.

Lemma C74_set_exp_vec_lemma : 
  forall (A : Type) (ar : arith A) dest (f curve : A) n,
    0 < n < 2 ^ 32 ->
    confined (fun m : mem A => set_exp_vec ar m dest f curve n) (fun _ => False) (range dest n).
Proof.
  intros. apply set_exp_confined; assumption.
Qed.

Lemma C74_copyvec_lemma : 
  forall (A : Type) dest src n,
    0 <= n ->
    confined (fun m : mem A => copyvec m dest src n) (range src n) (range dest n).
Proof.
  intros. apply copyvec_confined; assumption.
Qed.

Lemma C74_addvec_lemma : 
  forall (A : Type) (ar : arith A) out inp n,
    0 < n < 2 ^ 32 ->
    confined (fun m : mem A => addvec ar m out inp n) (range inp n) (range out n).
Proof.
  intros. apply addvec_confined; assumption.
Qed.

Lemma C74_addvec_scalar_lemma : 
  forall (A : Type) (ar : arith A) out (f : A) n,
    0 < n < 2 ^ 32 ->
    confined (fun m : mem A => addvec_scalar ar m out f n) (fun _ => False) (range out n).
Proof.
  intros. apply addvec_scalar_confined; assumption.
Qed.

Lemma C74_pan2_vec_lemma : 
  forall (A : Type) (ar : arith A) out0 out1 inp (f0 f1 : A) n,
    0 < n < 2 ^ 32 ->
    confined (fun m : mem A => pan2_vec ar m out0 out1 inp f0 f1 n) (range inp n) (fun a => range out0 n a \/ range out1 n a).
Proof.
  intros. apply pan2_confined; assumption.
Qed.

Lemma C74_pan2_slope_vec_lemma : 
  forall (A : Type) (ar : arith A) out0 out1 inp (f0 s0 f1 s1 : A) n,
    0 < n < 2 ^ 32 ->
    confined (fun m : mem A => pan2_slope_vec ar m out0 out1 inp f0 s0 f1 s1 n) (range inp n) (fun a => range out0 n a \/ range out1 n a).
Proof.
  intros. apply pan2_slope_confined; assumption.
Qed.

Lemma C74_zerovec_simd_lemma : 
  forall (A : Type) (ar : arith A) (B : backend) dest n,
    in_place B dest -> loop_unit B <= n < 2 ^ 32 ->
    confined (fun m : mem A => zerovec_simd ar B m dest n) (fun _ => False) (range dest n).
Proof.
  intros. apply detail_setvec_confined; try assumption; apply repeat_length.
Qed.

Lemma C74_zerovec_na_simd_lemma : 
  forall (A : Type) (ar : arith A) (B : backend) dest n,
    in_place B dest -> loop_unit B <= n < 2 ^ 32 ->
    confined (fun m : mem A => zerovec_na_simd ar B m dest n) (fun _ => False) (range dest n).
Proof.
  intros. apply detail_setvec_confined; try assumption; apply repeat_length.
Qed.

Lemma C74_setvec_simd_lemma : 
  forall (A : Type) (B : backend) dest (f : A) n,
    in_place B dest -> loop_unit B <= n < 2 ^ 32 ->
    confined (fun m : mem A => setvec_simd B m dest f n) (fun _ => False) (range dest n).
Proof.
  intros. apply detail_setvec_confined; try assumption; apply repeat_length.
Qed.

Lemma C74_setvec_na_simd_lemma : 
  forall (A : Type) (B : backend) dest (f : A) n,
    in_place B dest -> loop_unit B <= n < 2 ^ 32 ->
    confined (fun m : mem A => setvec_na_simd B m dest f n) (fun _ => False) (range dest n).
Proof.
  intros. apply detail_setvec_confined; try assumption; apply repeat_length.
Qed.

Lemma C74_set_slope_vec_simd_lemma : 
  forall (A : Type) (ar : arith A) (B : backend) dest (f slope : A) n,
    in_place B dest -> loop_unit B <= n < 2 ^ 32 ->
    confined (fun m : mem A => set_slope_vec_simd ar B m dest f slope n) (fun _ => False) (range dest n).
Proof.
  intros. apply set_slope_simd_confined; assumption.
Qed.

Lemma C74_set_exp_vec_simd_lemma : 
  forall (A : Type) (ar : arith A) (B : backend) dest (f curve : A) n,
    in_place B dest -> loop_unit B <= n < 2 ^ 32 ->
    confined (fun m : mem A => set_exp_vec_simd ar B m dest f curve n) (fun _ => False) (range dest n).
Proof.
  intros. apply set_exp_simd_confined; assumption.
Qed.

Lemma C74_addvec_simd_lemma : 
  forall (A : Type) (ar : arith A) (B : backend) out inp n,
    in_place B out -> in_place B inp -> loop_unit B <= n < 2 ^ 32 ->
    confined (fun m : mem A => addvec_simd ar B m out inp n) (range inp n) (range out n).
Proof.
  intros. apply addvec_simd_confined; assumption.
Qed.

Lemma C74_addvec_scalar_simd_lemma : 
  forall (A : Type) (ar : arith A) (B : backend) out (f : A) n,
    in_place B out -> loop_unit B <= n < 2 ^ 32 ->
    confined (fun m : mem A => addvec_scalar_simd ar B m out f n) (fun _ => False) (range out n).
Proof.
  intros. apply addvec_scalar_simd_confined; assumption.
Qed.

Lemma C74_pan2_vec_simd_lemma : 
  forall (A : Type) (ar : arith A) (B : backend) out0 out1 inp (f0 f1 : A) n,
    in_place B out0 -> in_place B out1 -> in_place B inp -> loop_unit B <= n < 2 ^ 32 ->
    confined (fun m : mem A => pan2_vec_simd ar B m out0 out1 inp f0 f1 n) (range inp n) (fun a => range out0 n a \/ range out1 n a).
Proof.
  intros. apply pan2_simd_confined; assumption.
Qed.

Lemma C74_pan2_slope_vec_simd_lemma : 
  forall (A : Type) (ar : arith A) (B : backend) out0 out1 inp (f0 s0 f1 s1 : A) n,
    in_place B out0 -> in_place B out1 -> in_place B inp -> loop_unit B <= n < 2 ^ 32 ->
    confined (fun m : mem A => pan2_slope_vec_simd ar B m out0 out1 inp f0 s0 f1 s1 n) (range inp n) (fun a => range out0 n a \/ range out1 n a).
Proof.
  intros. apply pan2_slope_simd_confined; assumption.
Qed.

Lemma C74_copyvec_simd_lemma : 
  forall (A : Type) (B : backend) (src_aligned dest_aligned : bool) dest src n,
    in_place B dest -> in_place B src -> loop_unit B <= n < 2 ^ 32 ->
    confined (fun m : mem A => copyvec_simd_gen B src_aligned dest_aligned m dest src n) (range src (n + Z.of_nat (vsize B))) (range dest n).
Proof.
  intros. apply copyvec_simd_confined; assumption.
Qed.

Lemma C74_copy_within_source_refuted_lemma : 
  ~ confined (fun m : mem Z => copyvec_simd SSE32 m 32 64 16) (range 64 16) (range 32 16).
Proof.
  intros [_ H]. specialize (H (block 0 128 (fun a => a)) (fun a => if a <? 80 then Some a else None)).
  assert (E : forall a, range 64 16 a \/ range 32 16 a -> block 0 128 (fun a : Z => a) a = (if a <? 80 then Some a else None)).
  { intros a Ha. unfold range in Ha. rewrite block_in by lia. destruct (Z.ltb_spec a 80); [reflexivity|lia]. }
  specialize (H E). vm_compute in H. exact H.
Qed.

Lemma C74_misaligned_altivec_refuted_lemma : 
  ~ confined (fun m : mem Z => setvec_na_simd ALTIVEC32 m 33 7 16) (fun _ => False) (range 33 16).
Proof.
  intros [H _]. specialize (H (block 0 64 (fun a => a))).
  destruct (setvec_na_simd ALTIVEC32 (block 0 64 (fun a => a)) 33 7 16) as [m'|] eqn:E; [|vm_compute in E; discriminate].
  specialize (H m' eq_refl 32). assert (G : match setvec_na_simd ALTIVEC32 (block 0 64 (fun a => a)) 33 7 16 with Ok m => m 32 = Some 7 | _ => False end) by (vm_compute; reflexivity).
  rewrite E in G. rewrite G in H. specialize (H ltac:(unfold range; lia)). vm_compute in H. discriminate.
Qed.

Lemma C74_any_order_lemma : 
  forall (A : Type) (jobs jobs' : list (job A)) (m : mem A),
    Permutation jobs jobs' ->
    Forall (fun j : job A => let '(call, R, W) := j in confined call R W) jobs -> ForallOrdPairs independent jobs ->
    same_effect (perform jobs m) (perform jobs' m).
Proof.
  intros A jobs jobs' m P HW HI. apply perform_any_order; assumption.
Qed.
