(** Processing in blocks, and what a call reads and writes (C73, C74). *)
From Coq Require Import ZArith Reals List Lia Bool Permutation.
From Flocq Require Import Core IEEE754.Binary IEEE754.Bits.
From Verif Require Import
  Base Mem Loop Backend Args Drivers MemFuns Pan Lanes Float LaneOps FloatOps Spec SpecBlocks KaryFacts DriverFacts ExData ExFloat BlocksClaims.
Import ListNotations.
Local Open Scope Z_scope.

(** * C73: processing in blocks *)

(** NAME_vec on consecutive blocks of any lengths, one call each, does exactly what
    one call on the whole does: the same memory or the same fault, whatever the
    buffers overlap. *)
Theorem C73_unary_vec_in_blocks : 
  forall (A : Type) (f : A -> A) (m : mem A) out inp lens, blocks lens ->
    in_blocks (fun off n m => unary_vec f m (out + off) (inp + off) n) 0 lens m = unary_vec f m out inp (total lens).
Proof. exact C73_unary_vec_in_blocks_lemma. Qed.
Print Assumptions C73_unary_vec_in_blocks.

Example C73_unary_vec_in_blocks_ex :
  let m := block 0 20 (fun a => a * a) in let run := fun off n m => unary_vec Z.opp m (0 + off) (5 + off) n in
  blocks [3; 1; 6] /\ total [3; 1; 6] = 10 /\
  match in_blocks run 0 [3; 1; 6] m with Ok m' => map m' [0; 3; 9; 10; 14] = map Some [-25; -64; -196; 100; 196] | _ => False end.
Proof. cbv zeta. repeat split; try (vm_compute; reflexivity); [discriminate|repeat constructor]. Qed.

(** The same with two arguments; a ramp is passed on where the additions of the slope
    have led it. *)
Theorem C73_binary_vec_in_blocks : 
  forall (A : Type) (ar : arith A) (f : A -> A -> A) (m : mem A) out (a1 a2 : arg A) lens, blocks lens ->
    in_blocks (fun off n m => binary_vec ar f m (out + off) (advanced ar a1 off) (advanced ar a2 off) n) 0 lens m
    = binary_vec ar f m out a1 a2 (total lens).
Proof. exact C73_binary_vec_in_blocks_lemma. Qed.
Print Assumptions C73_binary_vec_in_blocks.

Example C73_binary_vec_in_blocks_ex :
  let m := block 0 20 (fun a => a * a) in
  let run := fun off n m => binary_vec zarith Z.add m (3 + off) (advanced zarith (APtr 2) off) (advanced zarith (ARamp 5 3) off) n in
  blocks [3; 1; 6] /\ exists m', in_blocks run 0 [3; 1; 6] m = Ok m' /\ binary_vec zarith Z.add m 3 (APtr 2) (ARamp 5 3) 10 = Ok m' /\ m' 12 <> m 12.
Proof.
  cbv zeta. split; [repeat split; [discriminate|repeat constructor]|].
  rewrite (C73_binary_vec_in_blocks Z zarith); [|repeat split; [discriminate|repeat constructor]]. cbn [total fold_right].
  set (r := binary_vec _ _ _ _ _ _ _). assert (E : match r with Ok m' => m' 12 <> Some 144 | _ => False end) by (vm_compute; discriminate).
  destruct r as [m'|]; [|contradiction]. exists m'. auto.
Qed.

Theorem C73_ternary_vec_in_blocks : 
  forall (A : Type) (ar : arith A) (f : A -> A -> A -> A) (m : mem A) out (a1 a2 a3 : arg A) lens, blocks lens ->
    in_blocks (fun off n m => ternary_vec ar f m (out + off) (advanced ar a1 off) (advanced ar a2 off) (advanced ar a3 off) n) 0 lens m
    = ternary_vec ar f m out a1 a2 a3 (total lens).
Proof. exact C73_ternary_vec_in_blocks_lemma. Qed.
Print Assumptions C73_ternary_vec_in_blocks.

Example C73_ternary_vec_in_blocks_ex :
  let m := block 0 20 (fun a => a * a) in
  let run := fun off n m => ternary_vec zarith (fun x y z => x * y + z) m (3 + off) (advanced zarith (APtr 2) off) (advanced zarith (ARamp 5 3) off) (advanced zarith (AScal 7) off) n in
  blocks [3; 1; 6] /\ exists m', in_blocks run 0 [3; 1; 6] m = Ok m' /\ ternary_vec zarith (fun x y z => x * y + z) m 3 (APtr 2) (ARamp 5 3) (AScal 7) 10 = Ok m' /\ m' 12 <> m 12.
Proof.
  cbv zeta. split; [repeat split; [discriminate|repeat constructor]|].
  rewrite (C73_ternary_vec_in_blocks Z zarith); [|repeat split; [discriminate|repeat constructor]]. cbn [total fold_right].
  set (r := ternary_vec _ _ _ _ _ _ _ _). assert (E : match r with Ok m' => m' 12 <> Some 144 | _ => False end) by (vm_compute; discriminate).
  destruct r as [m'|]; [|contradiction]. exists m'. auto.
Qed.

Theorem C73_quaternary_vec_in_blocks : 
  forall (A : Type) (ar : arith A) (f : A -> A -> A -> A -> A) (m : mem A) out (a1 a2 a3 a4 : arg A) lens, blocks lens ->
    in_blocks (fun off n m => quaternary_vec ar f m (out + off) (advanced ar a1 off) (advanced ar a2 off) (advanced ar a3 off) (advanced ar a4 off) n) 0 lens m
    = quaternary_vec ar f m out a1 a2 a3 a4 (total lens).
Proof. exact C73_quaternary_vec_in_blocks_lemma. Qed.
Print Assumptions C73_quaternary_vec_in_blocks.

Example C73_quaternary_vec_in_blocks_ex :
  let m := block 0 20 (fun a => a * a) in
  let run := fun off n m => quaternary_vec zarith (fun x y z w => x * y + z * w) m (3 + off) (advanced zarith (APtr 2) off) (advanced zarith (ARamp 5 3) off) (advanced zarith (AScal 7) off) (advanced zarith (APtr 0) off) n in
  blocks [3; 1; 6] /\ exists m', in_blocks run 0 [3; 1; 6] m = Ok m' /\ quaternary_vec zarith (fun x y z w => x * y + z * w) m 3 (APtr 2) (ARamp 5 3) (AScal 7) (APtr 0) 10 = Ok m' /\ m' 12 <> m 12.
Proof.
  cbv zeta. split; [repeat split; [discriminate|repeat constructor]|].
  rewrite (C73_quaternary_vec_in_blocks Z zarith); [|repeat split; [discriminate|repeat constructor]]. cbn [total fold_right].
  set (r := quaternary_vec _ _ _ _ _ _ _ _ _). assert (E : match r with Ok m' => m' 12 <> Some 144 | _ => False end) by (vm_compute; discriminate).
  destruct r as [m'|]; [|contradiction]. exists m'. auto.
Qed.

(** Ramps and exponential curves can be continued in the next call. *)
Theorem C73_set_slope_vec_in_blocks : 
  forall (A : Type) (ar : arith A) (m : mem A) dest start slope lens, blocks lens ->
    in_blocks (fun off n m => set_slope_vec ar m (dest + off) (Nat.iter (Z.to_nat off) (fun y => a_add ar y slope) start) slope n) 0 lens m
    = set_slope_vec ar m dest start slope (total lens).
Proof. exact C73_set_slope_vec_in_blocks_lemma. Qed.
Print Assumptions C73_set_slope_vec_in_blocks.

Example C73_set_slope_vec_in_blocks_ex :
  let m := block 0 20 (fun a => a * a) in
  blocks [3; 1; 6] /\ match set_slope_vec zarith m 4 7 (-2) (total [3; 1; 6]) with Ok m' => m' 13 = Some (-11) /\ m' 14 = Some 196 | _ => False end.
Proof. cbv zeta. repeat split; [discriminate|repeat constructor]. Qed.

Theorem C73_set_exp_vec_in_blocks : 
  forall (A : Type) (ar : arith A) (m : mem A) dest start curve lens, blocks lens ->
    in_blocks (fun off n m => set_exp_vec ar m (dest + off) (Nat.iter (Z.to_nat off) (fun y => a_mul ar y curve) start) curve n) 0 lens m
    = set_exp_vec ar m dest start curve (total lens).
Proof. exact C73_set_exp_vec_in_blocks_lemma. Qed.
Print Assumptions C73_set_exp_vec_in_blocks.

Example C73_set_exp_vec_in_blocks_ex :
  let m := block 0 20 (fun a => a * a) in
  blocks [3; 1; 6] /\ match set_exp_vec zarith m 4 7 (-2) (total [3; 1; 6]) with Ok m' => m' 13 = Some (-3584) /\ m' 14 = Some 196 | _ => False end.
Proof. cbv zeta. repeat split; [discriminate|repeat constructor]. Qed.

(** The SIMD forms, when every block is a multiple of the unit of the loop. *)
Theorem C73_unary_vec_simd_in_blocks : 
  forall (A : Type) (ar : arith A) (B : backend) (f : list A -> list A) (m : mem A) out inp lens, blocks_of (loop_unit B) lens ->
    in_blocks (fun off n m => unary_vec_simd ar B f m (out + off) (inp + off) n) 0 lens m = unary_vec_simd ar B f m out inp (total lens).
Proof. exact C73_unary_vec_simd_in_blocks_lemma. Qed.
Print Assumptions C73_unary_vec_simd_in_blocks.

Example C73_unary_vec_simd_in_blocks_ex :
  let m := block 0 200 (fun a => a * a) in
  blocks_of (loop_unit AVX32) [32; 16; 48] /\ match unary_vec_simd zarith AVX32 (map Z.opp) m 0 96 (total [32; 16; 48]) with Ok m' => m' 0 = Some (-9216) /\ m' 95 = Some (-36481) | _ => False end.
Proof. cbv zeta. split; [|vm_compute; auto]. split; [repeat split; [discriminate|repeat constructor]|]. repeat constructor; apply Z.mod_divide; try discriminate; reflexivity. Qed.

(** With pointers and scalars, in any arithmetic; *)
Theorem C73_binary_vec_simd_in_blocks : 
  forall (A : Type) (ar : arith A) (B : backend) (f : list A -> list A -> list A) (m : mem A) out (a1 a2 : arg A) lens,
    Forall steady [a1; a2] -> blocks_of (loop_unit B) lens ->
    in_blocks (fun off n m => binary_vec_simd ar B f m (out + off) (advanced ar a1 off) (advanced ar a2 off) n) 0 lens m
    = binary_vec_simd ar B f m out a1 a2 (total lens).
Proof. exact C73_binary_vec_simd_in_blocks_lemma. Qed.
Print Assumptions C73_binary_vec_simd_in_blocks.

Example C73_binary_vec_simd_in_blocks_ex :
  let m := block 0 200 (fun a => a * a) in
  Forall steady [APtr 96; AScal 5 : arg Z] /\ blocks_of (loop_unit AVX32) [32; 16; 48] /\
  match binary_vec_simd zarith AVX32 (map2 Z.add) m 0 (APtr 96) (AScal 5) (total [32; 16; 48]) with Ok m' => m' 0 <> Some 0 /\ m' 95 <> Some 9025 | _ => False end.
Proof.
  cbv zeta. split; [repeat constructor|]. split; [|vm_compute; split; discriminate].
  split; [repeat split; [discriminate|repeat constructor]|]. repeat constructor; apply Z.mod_divide; try discriminate; reflexivity.
Qed.

Theorem C73_ternary_vec_simd_in_blocks : 
  forall (A : Type) (ar : arith A) (B : backend) (f : list A -> list A -> list A -> list A) (m : mem A) out (a1 a2 a3 : arg A) lens,
    Forall steady [a1; a2; a3] -> blocks_of (loop_unit B) lens ->
    in_blocks (fun off n m => ternary_vec_simd ar B f m (out + off) (advanced ar a1 off) (advanced ar a2 off) (advanced ar a3 off) n) 0 lens m
    = ternary_vec_simd ar B f m out a1 a2 a3 (total lens).
Proof. exact C73_ternary_vec_simd_in_blocks_lemma. Qed.
Print Assumptions C73_ternary_vec_simd_in_blocks.

Example C73_ternary_vec_simd_in_blocks_ex :
  let m := block 0 200 (fun a => a * a) in
  Forall steady [APtr 96; AScal 5; APtr 96 : arg Z] /\ blocks_of (loop_unit AVX32) [32; 16; 48] /\
  match ternary_vec_simd zarith AVX32 (map3 (fun x y z => x * y + z)) m 0 (APtr 96) (AScal 5) (APtr 96) (total [32; 16; 48]) with Ok m' => m' 0 <> Some 0 /\ m' 95 <> Some 9025 | _ => False end.
Proof.
  cbv zeta. split; [repeat constructor|]. split; [|vm_compute; split; discriminate].
  split; [repeat split; [discriminate|repeat constructor]|]. repeat constructor; apply Z.mod_divide; try discriminate; reflexivity.
Qed.

Theorem C73_quaternary_vec_simd_in_blocks : 
  forall (A : Type) (ar : arith A) (B : backend) (f : list A -> list A -> list A -> list A -> list A) (m : mem A) out (a1 a2 a3 a4 : arg A) lens,
    Forall steady [a1; a2; a3; a4] -> blocks_of (loop_unit B) lens ->
    in_blocks (fun off n m => quaternary_vec_simd ar B f m (out + off) (advanced ar a1 off) (advanced ar a2 off) (advanced ar a3 off) (advanced ar a4 off) n) 0 lens m
    = quaternary_vec_simd ar B f m out a1 a2 a3 a4 (total lens).
Proof. exact C73_quaternary_vec_simd_in_blocks_lemma. Qed.
Print Assumptions C73_quaternary_vec_simd_in_blocks.

Example C73_quaternary_vec_simd_in_blocks_ex :
  let m := block 0 200 (fun a => a * a) in
  Forall steady [APtr 96; AScal 5; APtr 96; AScal 3 : arg Z] /\ blocks_of (loop_unit AVX32) [32; 16; 48] /\
  match quaternary_vec_simd zarith AVX32 (map4 (fun x y z w => x * y + z * w)) m 0 (APtr 96) (AScal 5) (APtr 96) (AScal 3) (total [32; 16; 48]) with Ok m' => m' 0 <> Some 0 /\ m' 95 <> Some 9025 | _ => False end.
Proof.
  cbv zeta. split; [repeat constructor|]. split; [|vm_compute; split; discriminate].
  split; [repeat split; [discriminate|repeat constructor]|]. repeat constructor; apply Z.mod_divide; try discriminate; reflexivity.
Qed.

(** with ramps too, where arithmetic does not round. *)
Theorem C73_binary_ramps_in_blocks : 
  forall (A : Type) (ar : arith A) (B : backend) (f : list A -> list A -> list A) (m : mem A) out (a1 a2 : arg A) lens,
    exact_arith ar -> blocks_of (loop_unit B) lens ->
    in_blocks (fun off n m => binary_vec_simd ar B f m (out + off) (advanced ar a1 off) (advanced ar a2 off) n) 0 lens m
    = binary_vec_simd ar B f m out a1 a2 (total lens).
Proof. exact C73_binary_ramps_in_blocks_lemma. Qed.
Print Assumptions C73_binary_ramps_in_blocks.

Example C73_binary_ramps_in_blocks_ex :
  let m := block 0 200 (fun a => a * a) in
  exact_arith zarith /\ blocks_of (loop_unit AVX32) [32; 16; 48] /\
  match binary_vec_simd zarith AVX32 (map2 Z.add) m 0 (APtr 96) (ARamp 5 3) (total [32; 16; 48]) with Ok m' => m' 0 <> Some 0 /\ m' 95 <> Some 9025 | _ => False end.
Proof.
  cbv zeta. split; [exact zarith_exact|]. split; [|vm_compute; split; discriminate].
  split; [repeat split; [discriminate|repeat constructor]|]. repeat constructor; apply Z.mod_divide; try discriminate; reflexivity.
Qed.

Theorem C73_ternary_ramps_in_blocks : 
  forall (A : Type) (ar : arith A) (B : backend) (f : list A -> list A -> list A -> list A) (m : mem A) out (a1 a2 a3 : arg A) lens,
    exact_arith ar -> blocks_of (loop_unit B) lens ->
    in_blocks (fun off n m => ternary_vec_simd ar B f m (out + off) (advanced ar a1 off) (advanced ar a2 off) (advanced ar a3 off) n) 0 lens m
    = ternary_vec_simd ar B f m out a1 a2 a3 (total lens).
Proof. exact C73_ternary_ramps_in_blocks_lemma. Qed.
Print Assumptions C73_ternary_ramps_in_blocks.

Example C73_ternary_ramps_in_blocks_ex :
  let m := block 0 200 (fun a => a * a) in
  exact_arith zarith /\ blocks_of (loop_unit AVX32) [32; 16; 48] /\
  match ternary_vec_simd zarith AVX32 (map3 (fun x y z => x * y + z)) m 0 (APtr 96) (ARamp 5 3) (ARamp 7 (-2)) (total [32; 16; 48]) with Ok m' => m' 0 <> Some 0 /\ m' 95 <> Some 9025 | _ => False end.
Proof.
  cbv zeta. split; [exact zarith_exact|]. split; [|vm_compute; split; discriminate].
  split; [repeat split; [discriminate|repeat constructor]|]. repeat constructor; apply Z.mod_divide; try discriminate; reflexivity.
Qed.

Theorem C73_quaternary_ramps_in_blocks : 
  forall (A : Type) (ar : arith A) (B : backend) (f : list A -> list A -> list A -> list A -> list A) (m : mem A) out (a1 a2 a3 a4 : arg A) lens,
    exact_arith ar -> blocks_of (loop_unit B) lens ->
    in_blocks (fun off n m => quaternary_vec_simd ar B f m (out + off) (advanced ar a1 off) (advanced ar a2 off) (advanced ar a3 off) (advanced ar a4 off) n) 0 lens m
    = quaternary_vec_simd ar B f m out a1 a2 a3 a4 (total lens).
Proof. exact C73_quaternary_ramps_in_blocks_lemma. Qed.
Print Assumptions C73_quaternary_ramps_in_blocks.

Example C73_quaternary_ramps_in_blocks_ex :
  let m := block 0 200 (fun a => a * a) in
  exact_arith zarith /\ blocks_of (loop_unit AVX32) [32; 16; 48] /\
  match quaternary_vec_simd zarith AVX32 (map4 (fun x y z w => x * y + z * w)) m 0 (APtr 96) (ARamp 5 3) (ARamp 7 (-2)) (AScal 3) (total [32; 16; 48]) with Ok m' => m' 0 <> Some 0 /\ m' 95 <> Some 9025 | _ => False end.
Proof.
  cbv zeta. split; [exact zarith_exact|]. split; [|vm_compute; split; discriminate].
  split; [repeat split; [discriminate|repeat constructor]|]. repeat constructor; apply Z.mod_divide; try discriminate; reflexivity.
Qed.

(** Where arithmetic rounds, SIMD ramps in blocks are not the ramp of one call: steps
    of 0.1 from 0 in two blocks of 16 differ from the 17th sample on. *)
Theorem C73_simd_ramp_blocks_refuted : 
  exists base slope : F F32, let m := block 0 64 (fun _ => f_ofZ F32 1) in let ar := farith (n0 F32) in
    isfin base = true /\ isfin slope = true /\ blocks_of (loop_unit SSE32) [16; 16] /\
    cell_bits' (binary_vec_simd ar SSE32 (fun _ y => y) m 16 (APtr 16) (ARamp base slope) 32) 35 = Some 1072902963 /\
    cell_bits' (in_blocks (fun off n m => binary_vec_simd ar SSE32 (fun _ y => y) m (16 + off)
      (advanced ar (APtr 16) off) (advanced ar (ARamp base slope) off) n) 0 [16; 16] m) 35 = Some 1072902966.
Proof. exact C73_simd_ramp_blocks_refuted_lemma. Qed.
Print Assumptions C73_simd_ramp_blocks_refuted.

(** Starting the next block at start + n*slope is not the same as continuing. *)
Theorem C73_recomputed_start_refuted : 
  exists start slope : F F32, let m := block 0 64 (fun _ => f_ofZ F32 1) in let ar := farith (n0 F32) in
    isfin start = true /\ isfin slope = true /\ blocks [16; 16] /\
    cell_bits' (set_slope_vec ar m 16 start slope 32) 32 = Some 1070386383 /\
    cell_bits' (in_blocks (fun off n m =>
      set_slope_vec ar m (16 + off) (a_add ar start (a_mul ar (a_ofZ ar off) slope)) slope n) 0 [16; 16] m) 32 = Some 1070386381.
Proof. exact C73_recomputed_start_refuted_lemma. Qed.
Print Assumptions C73_recomputed_start_refuted.

(** Blocks that are not multiples of the unit are not processed completely by the SIMD
    forms. *)
Theorem C73_partial_units_refuted : 
  exists (m : mem Z), let ar := zarith in blocks [24; 24] /\
    match unary_vec_simd ar SSE32 (map Z.opp) m 0 64 (total [24; 24]) with Ok m' => m' 16 = Some (-6400) | _ => False end /\
    match in_blocks (fun off n m => unary_vec_simd ar SSE32 (map Z.opp) m (0 + off) (64 + off) n) 0 [24; 24] m with
    | Ok m' => m' 16 = Some 256 | _ => False end.
Proof. exact C73_partial_units_refuted_lemma. Qed.
Print Assumptions C73_partial_units_refuted.

(** * C74: calls touch their buffers only *)

(** What NAME_vec does depends on the n elements of each buffer argument and on the n
    elements of the output only, and nothing but the output changes. *)
Theorem C74_unary_vec : 
  forall (A : Type) (ar : arith A) (f : A -> A) out inp n,
    0 < n < 2 ^ 32 ->
    confined (fun m : mem A => unary_vec f m out inp n) (range inp n) (range out n).
Proof. exact C74_unary_vec_lemma. Qed.
Print Assumptions C74_unary_vec.

Example C74_unary_vec_ex :
  0 < 7 < 2 ^ 32 /\ match unary_vec Z.opp (block 0 30 (fun a => a * a)) 2 10 7 with Ok m' => m' 8 = Some (-256) /\ m' 9 = Some 81 | _ => False end.
Proof. split; [lia|]. vm_compute. auto. Qed.

Theorem C74_binary_vec : 
  forall (A : Type) (ar : arith A) (f : A -> A -> A) out (a1 a2 : arg A) n,
    0 < n < 2 ^ 32 ->
    confined (fun m : mem A => binary_vec ar f m out a1 a2 n) (fun a => arg_range a1 n a \/ arg_range a2 n a) (range out n).
Proof. exact C74_binary_vec_lemma. Qed.
Print Assumptions C74_binary_vec.

Example C74_binary_vec_ex :
  0 < 7 < 2 ^ 32 /\ arg_range (APtr 10 : arg Z) 7 12 /\ ~ arg_range (APtr 10 : arg Z) 7 17 /\
  match binary_vec zarith Z.add (block 0 30 (fun a => a * a)) 2 (APtr 10) (ARamp 5 3) 7 with Ok m' => m' 8 <> Some 64 /\ m' 9 = Some 81 | _ => False end.
Proof. unfold arg_range, range. split; [lia|]. split; [lia|]. split; [lia|]. vm_compute. split; [discriminate|reflexivity]. Qed.

Theorem C74_ternary_vec : 
  forall (A : Type) (ar : arith A) (f : A -> A -> A -> A) out (a1 a2 a3 : arg A) n,
    0 < n < 2 ^ 32 ->
    confined (fun m : mem A => ternary_vec ar f m out a1 a2 a3 n) (fun a => arg_range a1 n a \/ arg_range a2 n a \/ arg_range a3 n a) (range out n).
Proof. exact C74_ternary_vec_lemma. Qed.
Print Assumptions C74_ternary_vec.

Example C74_ternary_vec_ex :
  0 < 7 < 2 ^ 32 /\ arg_range (APtr 10 : arg Z) 7 12 /\ ~ arg_range (APtr 10 : arg Z) 7 17 /\
  match ternary_vec zarith (fun x y z => x * y + z) (block 0 30 (fun a => a * a)) 2 (APtr 10) (ARamp 5 3) (AScal 7) 7 with Ok m' => m' 8 <> Some 64 /\ m' 9 = Some 81 | _ => False end.
Proof. unfold arg_range, range. split; [lia|]. split; [lia|]. split; [lia|]. vm_compute. split; [discriminate|reflexivity]. Qed.

Theorem C74_quaternary_vec : 
  forall (A : Type) (ar : arith A) (f : A -> A -> A -> A -> A) out (a1 a2 a3 a4 : arg A) n,
    0 < n < 2 ^ 32 ->
    confined (fun m : mem A => quaternary_vec ar f m out a1 a2 a3 a4 n) (fun a => arg_range a1 n a \/ arg_range a2 n a \/ arg_range a3 n a \/ arg_range a4 n a) (range out n).
Proof. exact C74_quaternary_vec_lemma. Qed.
Print Assumptions C74_quaternary_vec.

Example C74_quaternary_vec_ex :
  0 < 7 < 2 ^ 32 /\ arg_range (APtr 10 : arg Z) 7 12 /\ ~ arg_range (APtr 10 : arg Z) 7 17 /\
  match quaternary_vec zarith (fun x y z w => x * y + z * w) (block 0 30 (fun a => a * a)) 2 (APtr 10) (ARamp 5 3) (AScal 7) (APtr 20) 7 with Ok m' => m' 8 <> Some 64 /\ m' 9 = Some 81 | _ => False end.
Proof. unfold arg_range, range. split; [lia|]. split; [lia|]. split; [lia|]. vm_compute. split; [discriminate|reflexivity]. Qed.

(** The SIMD forms; with a misaligned pointer Altivec is left out. *)
Theorem C74_unary_vec_simd : 
  forall (A : Type) (ar : arith A) (B : backend) (f : list A -> list A) out inp n,
    sized1 B f -> in_place B out -> in_place B inp -> loop_unit B <= n < 2 ^ 32 ->
    confined (fun m : mem A => unary_vec_simd ar B f m out inp n) (range inp (n)) (range out n).
Proof. exact C74_unary_vec_simd_lemma. Qed.
Print Assumptions C74_unary_vec_simd.

Example C74_unary_vec_simd_ex :
  sized1 ALTIVEC32 (map Z.opp) /\ in_place ALTIVEC32 32 /\ in_place ALTIVEC32 64 /\ loop_unit ALTIVEC32 <= 16 < 2 ^ 32 /\
  match unary_vec_simd zarith ALTIVEC32 (map Z.opp) (block 0 128 (fun a => a * a)) 32 64 16 with Ok m' => m' 47 <> Some 2209 /\ m' 48 = Some 2304 | _ => False end.
Proof.
  split; [intros u H; rewrite map_length; exact H|]. unfold arg_in_place, in_place.
  repeat (split; [first [exact I | cbn; lia | intros _; apply Z.mod_divide; [discriminate|reflexivity]]|]). vm_compute. split; [discriminate|reflexivity].
Qed.

Theorem C74_unary_vec_simd_ct : 
  forall (A : Type) (ar : arith A) (B : backend) (k : nat) (f : list A -> list A) out inp,
    sized1 B f -> in_place B out -> in_place B inp -> (0 < k)%nat ->
    confined (fun m : mem A => unary_vec_simd_ct ar B k f m out inp) (range inp (Z.of_nat k * Z.of_nat (vsize B))) (range out (Z.of_nat k * Z.of_nat (vsize B))).
Proof. exact C74_unary_vec_simd_ct_lemma. Qed.
Print Assumptions C74_unary_vec_simd_ct.

Example C74_unary_vec_simd_ct_ex :
  sized1 ALTIVEC32 (map Z.opp) /\ in_place ALTIVEC32 32 /\ in_place ALTIVEC32 64 /\ (0 < 4)%nat /\
  match unary_vec_simd_ct zarith ALTIVEC32 4 (map Z.opp) (block 0 128 (fun a => a * a)) 32 64 with Ok m' => m' 47 <> Some 2209 /\ m' 48 = Some 2304 | _ => False end.
Proof.
  split; [intros u H; rewrite map_length; exact H|]. unfold arg_in_place, in_place.
  repeat (split; [first [exact I | lia | intros _; apply Z.mod_divide; [discriminate|reflexivity]]|]). vm_compute. split; [discriminate|reflexivity].
Qed.

Theorem C74_binary_vec_simd : 
  forall (A : Type) (ar : arith A) (B : backend) (f : list A -> list A -> list A) out (a1 a2 : arg A) n,
    sized2 B f -> in_place B out -> arg_in_place B a1 -> arg_in_place B a2 -> loop_unit B <= n < 2 ^ 32 ->
    confined (fun m : mem A => binary_vec_simd ar B f m out a1 a2 n) (fun a => arg_range a1 (n) a \/ arg_range a2 (n) a) (range out n).
Proof. exact C74_binary_vec_simd_lemma. Qed.
Print Assumptions C74_binary_vec_simd.

Example C74_binary_vec_simd_ex :
  sized2 ALTIVEC32 (map2 Z.add) /\ in_place ALTIVEC32 32 /\ arg_in_place ALTIVEC32 ((APtr 64) : arg Z) /\ arg_in_place ALTIVEC32 ((ARamp 5 3) : arg Z) /\ loop_unit ALTIVEC32 <= 16 < 2 ^ 32 /\
  match binary_vec_simd zarith ALTIVEC32 (map2 Z.add) (block 0 128 (fun a => a * a)) 32 (APtr 64) (ARamp 5 3) 16 with Ok m' => m' 47 <> Some 2209 /\ m' 48 = Some 2304 | _ => False end.
Proof.
  split; [intros u v H1 H2; rewrite map2_length; congruence|]. unfold arg_in_place, in_place.
  repeat (split; [first [exact I | cbn; lia | intros _; apply Z.mod_divide; [discriminate|reflexivity]]|]). vm_compute. split; [discriminate|reflexivity].
Qed.

Theorem C74_binary_vec_simd_ct : 
  forall (A : Type) (ar : arith A) (B : backend) (k : nat) (f : list A -> list A -> list A) out (a1 a2 : arg A),
    sized2 B f -> in_place B out -> arg_in_place B a1 -> arg_in_place B a2 -> (0 < k)%nat ->
    confined (fun m : mem A => binary_vec_simd_ct ar B k f m out a1 a2) (fun a => arg_range a1 (Z.of_nat k * Z.of_nat (vsize B)) a \/ arg_range a2 (Z.of_nat k * Z.of_nat (vsize B)) a) (range out (Z.of_nat k * Z.of_nat (vsize B))).
Proof. exact C74_binary_vec_simd_ct_lemma. Qed.
Print Assumptions C74_binary_vec_simd_ct.

Example C74_binary_vec_simd_ct_ex :
  sized2 ALTIVEC32 (map2 Z.add) /\ in_place ALTIVEC32 32 /\ arg_in_place ALTIVEC32 ((APtr 64) : arg Z) /\ arg_in_place ALTIVEC32 ((ARamp 5 3) : arg Z) /\ (0 < 4)%nat /\
  match binary_vec_simd_ct zarith ALTIVEC32 4 (map2 Z.add) (block 0 128 (fun a => a * a)) 32 (APtr 64) (ARamp 5 3) with Ok m' => m' 47 <> Some 2209 /\ m' 48 = Some 2304 | _ => False end.
Proof.
  split; [intros u v H1 H2; rewrite map2_length; congruence|]. unfold arg_in_place, in_place.
  repeat (split; [first [exact I | lia | intros _; apply Z.mod_divide; [discriminate|reflexivity]]|]). vm_compute. split; [discriminate|reflexivity].
Qed.

Theorem C74_ternary_vec_simd : 
  forall (A : Type) (ar : arith A) (B : backend) (f : list A -> list A -> list A -> list A) out (a1 a2 a3 : arg A) n,
    sized3 B f -> in_place B out -> arg_in_place B a1 -> arg_in_place B a2 -> arg_in_place B a3 -> loop_unit B <= n < 2 ^ 32 ->
    confined (fun m : mem A => ternary_vec_simd ar B f m out a1 a2 a3 n) (fun a => arg_range a1 (n) a \/ arg_range a2 (n) a \/ arg_range a3 (n) a) (range out n).
Proof. exact C74_ternary_vec_simd_lemma. Qed.
Print Assumptions C74_ternary_vec_simd.

Example C74_ternary_vec_simd_ex :
  sized3 ALTIVEC32 (map3 (fun x y z => x * y + z)) /\ in_place ALTIVEC32 32 /\ arg_in_place ALTIVEC32 ((APtr 64) : arg Z) /\ arg_in_place ALTIVEC32 ((ARamp 5 3) : arg Z) /\ arg_in_place ALTIVEC32 ((AScal 7) : arg Z) /\ loop_unit ALTIVEC32 <= 16 < 2 ^ 32 /\
  match ternary_vec_simd zarith ALTIVEC32 (map3 (fun x y z => x * y + z)) (block 0 128 (fun a => a * a)) 32 (APtr 64) (ARamp 5 3) (AScal 7) 16 with Ok m' => m' 47 <> Some 2209 /\ m' 48 = Some 2304 | _ => False end.
Proof.
  split; [intros u v w H1 H2 H3; rewrite map3_length; congruence|]. unfold arg_in_place, in_place.
  repeat (split; [first [exact I | cbn; lia | intros _; apply Z.mod_divide; [discriminate|reflexivity]]|]). vm_compute. split; [discriminate|reflexivity].
Qed.

Theorem C74_ternary_vec_simd_ct : 
  forall (A : Type) (ar : arith A) (B : backend) (k : nat) (f : list A -> list A -> list A -> list A) out (a1 a2 a3 : arg A),
    sized3 B f -> in_place B out -> arg_in_place B a1 -> arg_in_place B a2 -> arg_in_place B a3 -> (0 < k)%nat ->
    confined (fun m : mem A => ternary_vec_simd_ct ar B k f m out a1 a2 a3) (fun a => arg_range a1 (Z.of_nat k * Z.of_nat (vsize B)) a \/ arg_range a2 (Z.of_nat k * Z.of_nat (vsize B)) a \/ arg_range a3 (Z.of_nat k * Z.of_nat (vsize B)) a) (range out (Z.of_nat k * Z.of_nat (vsize B))).
Proof. exact C74_ternary_vec_simd_ct_lemma. Qed.
Print Assumptions C74_ternary_vec_simd_ct.

Example C74_ternary_vec_simd_ct_ex :
  sized3 ALTIVEC32 (map3 (fun x y z => x * y + z)) /\ in_place ALTIVEC32 32 /\ arg_in_place ALTIVEC32 ((APtr 64) : arg Z) /\ arg_in_place ALTIVEC32 ((ARamp 5 3) : arg Z) /\ arg_in_place ALTIVEC32 ((AScal 7) : arg Z) /\ (0 < 4)%nat /\
  match ternary_vec_simd_ct zarith ALTIVEC32 4 (map3 (fun x y z => x * y + z)) (block 0 128 (fun a => a * a)) 32 (APtr 64) (ARamp 5 3) (AScal 7) with Ok m' => m' 47 <> Some 2209 /\ m' 48 = Some 2304 | _ => False end.
Proof.
  split; [intros u v w H1 H2 H3; rewrite map3_length; congruence|]. unfold arg_in_place, in_place.
  repeat (split; [first [exact I | lia | intros _; apply Z.mod_divide; [discriminate|reflexivity]]|]). vm_compute. split; [discriminate|reflexivity].
Qed.

Theorem C74_quaternary_vec_simd : 
  forall (A : Type) (ar : arith A) (B : backend) (f : list A -> list A -> list A -> list A -> list A) out (a1 a2 a3 a4 : arg A) n,
    sized4 B f -> in_place B out -> arg_in_place B a1 -> arg_in_place B a2 -> arg_in_place B a3 -> arg_in_place B a4 -> loop_unit B <= n < 2 ^ 32 ->
    confined (fun m : mem A => quaternary_vec_simd ar B f m out a1 a2 a3 a4 n) (fun a => arg_range a1 (n) a \/ arg_range a2 (n) a \/ arg_range a3 (n) a \/ arg_range a4 (n) a) (range out n).
Proof. exact C74_quaternary_vec_simd_lemma. Qed.
Print Assumptions C74_quaternary_vec_simd.

Example C74_quaternary_vec_simd_ex :
  sized4 ALTIVEC32 (map4 (fun x y z w => x * y + z * w)) /\ in_place ALTIVEC32 32 /\ arg_in_place ALTIVEC32 ((APtr 64) : arg Z) /\ arg_in_place ALTIVEC32 ((ARamp 5 3) : arg Z) /\ arg_in_place ALTIVEC32 ((AScal 7) : arg Z) /\ arg_in_place ALTIVEC32 ((APtr 96) : arg Z) /\ loop_unit ALTIVEC32 <= 16 < 2 ^ 32 /\
  match quaternary_vec_simd zarith ALTIVEC32 (map4 (fun x y z w => x * y + z * w)) (block 0 128 (fun a => a * a)) 32 (APtr 64) (ARamp 5 3) (AScal 7) (APtr 96) 16 with Ok m' => m' 47 <> Some 2209 /\ m' 48 = Some 2304 | _ => False end.
Proof.
  split; [intros u v w x H1 H2 H3 H4; rewrite map4_length; congruence|]. unfold arg_in_place, in_place.
  repeat (split; [first [exact I | cbn; lia | intros _; apply Z.mod_divide; [discriminate|reflexivity]]|]). vm_compute. split; [discriminate|reflexivity].
Qed.

Theorem C74_quaternary_vec_simd_ct : 
  forall (A : Type) (ar : arith A) (B : backend) (k : nat) (f : list A -> list A -> list A -> list A -> list A) out (a1 a2 a3 a4 : arg A),
    sized4 B f -> in_place B out -> arg_in_place B a1 -> arg_in_place B a2 -> arg_in_place B a3 -> arg_in_place B a4 -> (0 < k)%nat ->
    confined (fun m : mem A => quaternary_vec_simd_ct ar B k f m out a1 a2 a3 a4) (fun a => arg_range a1 (Z.of_nat k * Z.of_nat (vsize B)) a \/ arg_range a2 (Z.of_nat k * Z.of_nat (vsize B)) a \/ arg_range a3 (Z.of_nat k * Z.of_nat (vsize B)) a \/ arg_range a4 (Z.of_nat k * Z.of_nat (vsize B)) a) (range out (Z.of_nat k * Z.of_nat (vsize B))).
Proof. exact C74_quaternary_vec_simd_ct_lemma. Qed.
Print Assumptions C74_quaternary_vec_simd_ct.

Example C74_quaternary_vec_simd_ct_ex :
  sized4 ALTIVEC32 (map4 (fun x y z w => x * y + z * w)) /\ in_place ALTIVEC32 32 /\ arg_in_place ALTIVEC32 ((APtr 64) : arg Z) /\ arg_in_place ALTIVEC32 ((ARamp 5 3) : arg Z) /\ arg_in_place ALTIVEC32 ((AScal 7) : arg Z) /\ arg_in_place ALTIVEC32 ((APtr 96) : arg Z) /\ (0 < 4)%nat /\
  match quaternary_vec_simd_ct zarith ALTIVEC32 4 (map4 (fun x y z w => x * y + z * w)) (block 0 128 (fun a => a * a)) 32 (APtr 64) (ARamp 5 3) (AScal 7) (APtr 96) with Ok m' => m' 47 <> Some 2209 /\ m' 48 = Some 2304 | _ => False end.
Proof.
  split; [intros u v w x H1 H2 H3 H4; rewrite map4_length; congruence|]. unfold arg_in_place, in_place.
  repeat (split; [first [exact I | lia | intros _; apply Z.mod_divide; [discriminate|reflexivity]]|]). vm_compute. split; [discriminate|reflexivity].
Qed.

(** Fills, copies, sums and pan2. *)
Theorem C74_zerovec : 
  forall (A : Type) (ar : arith A) dest n,
    0 <= n ->
    confined (fun m : mem A => zerovec ar m dest n) (fun _ => False) (range dest n).
Proof. exact C74_zerovec_lemma. Qed.
Print Assumptions C74_zerovec.

Example C74_zerovec_ex :
  0 <= 7 /\ match zerovec zarith (block 0 30 (fun a => a * a)) 2 7 with Ok m' => m' 8 <> Some 64 /\ m' 9 = Some 81 | _ => False end.
Proof. repeat (split; [first [lia | cbn; lia | intros _; apply Z.mod_divide; [discriminate|reflexivity]]|]). vm_compute. split; [discriminate|reflexivity]. Qed.

Theorem C74_setvec : 
  forall (A : Type) dest (f : A) n,
    0 < n < 2 ^ 32 ->
    confined (fun m : mem A => setvec m dest f n) (fun _ => False) (range dest n).
Proof. exact C74_setvec_lemma. Qed.
Print Assumptions C74_setvec.

Example C74_setvec_ex :
  0 < 7 < 2 ^ 32 /\ match setvec (block 0 30 (fun a => a * a)) 2 5 7 with Ok m' => m' 8 <> Some 64 /\ m' 9 = Some 81 | _ => False end.
Proof. repeat (split; [first [lia | cbn; lia | intros _; apply Z.mod_divide; [discriminate|reflexivity]]|]). vm_compute. split; [discriminate|reflexivity]. Qed.

Theorem C74_set_slope_vec : 
  forall (A : Type) (ar : arith A) dest (f slope : A) n,
    0 < n < 2 ^ 32 ->
    confined (fun m : mem A => set_slope_vec ar m dest f slope n) (fun _ => False) (range dest n).
Proof. exact C74_set_slope_vec_lemma. Qed.
Print Assumptions C74_set_slope_vec.

Example C74_set_slope_vec_ex :
  0 < 7 < 2 ^ 32 /\ match set_slope_vec zarith (block 0 30 (fun a => a * a)) 2 5 3 7 with Ok m' => m' 8 <> Some 64 /\ m' 9 = Some 81 | _ => False end.
Proof. repeat (split; [first [lia | cbn; lia | intros _; apply Z.mod_divide; [discriminate|reflexivity]]|]). vm_compute. split; [discriminate|reflexivity]. Qed.

Theorem C74_set_exp_vec : 
  forall (A : Type) (ar : arith A) dest (f curve : A) n,
    0 < n < 2 ^ 32 ->
    confined (fun m : mem A => set_exp_vec ar m dest f curve n) (fun _ => False) (range dest n).
Proof. exact C74_set_exp_vec_lemma. Qed.
Print Assumptions C74_set_exp_vec.

Example C74_set_exp_vec_ex :
  0 < 7 < 2 ^ 32 /\ match set_exp_vec zarith (block 0 30 (fun a => a * a)) 2 5 3 7 with Ok m' => m' 8 <> Some 64 /\ m' 9 = Some 81 | _ => False end.
Proof. repeat (split; [first [lia | cbn; lia | intros _; apply Z.mod_divide; [discriminate|reflexivity]]|]). vm_compute. split; [discriminate|reflexivity]. Qed.

Theorem C74_copyvec : 
  forall (A : Type) dest src n,
    0 <= n ->
    confined (fun m : mem A => copyvec m dest src n) (range src n) (range dest n).
Proof. exact C74_copyvec_lemma. Qed.
Print Assumptions C74_copyvec.

Example C74_copyvec_ex :
  0 <= 7 /\ match copyvec (block 0 30 (fun a => a * a)) 2 12 7 with Ok m' => m' 8 <> Some 64 /\ m' 9 = Some 81 | _ => False end.
Proof. repeat (split; [first [lia | cbn; lia | intros _; apply Z.mod_divide; [discriminate|reflexivity]]|]). vm_compute. split; [discriminate|reflexivity]. Qed.

Theorem C74_addvec : 
  forall (A : Type) (ar : arith A) out inp n,
    0 < n < 2 ^ 32 ->
    confined (fun m : mem A => addvec ar m out inp n) (range inp n) (range out n).
Proof. exact C74_addvec_lemma. Qed.
Print Assumptions C74_addvec.

Example C74_addvec_ex :
  0 < 7 < 2 ^ 32 /\ match addvec zarith (block 0 30 (fun a => a * a)) 2 12 7 with Ok m' => m' 8 <> Some 64 /\ m' 9 = Some 81 | _ => False end.
Proof. repeat (split; [first [lia | cbn; lia | intros _; apply Z.mod_divide; [discriminate|reflexivity]]|]). vm_compute. split; [discriminate|reflexivity]. Qed.

Theorem C74_addvec_scalar : 
  forall (A : Type) (ar : arith A) out (f : A) n,
    0 < n < 2 ^ 32 ->
    confined (fun m : mem A => addvec_scalar ar m out f n) (fun _ => False) (range out n).
Proof. exact C74_addvec_scalar_lemma. Qed.
Print Assumptions C74_addvec_scalar.

Example C74_addvec_scalar_ex :
  0 < 7 < 2 ^ 32 /\ match addvec_scalar zarith (block 0 30 (fun a => a * a)) 2 12 7 with Ok m' => m' 8 <> Some 64 /\ m' 9 = Some 81 | _ => False end.
Proof. repeat (split; [first [lia | cbn; lia | intros _; apply Z.mod_divide; [discriminate|reflexivity]]|]). vm_compute. split; [discriminate|reflexivity]. Qed.

Theorem C74_pan2_vec : 
  forall (A : Type) (ar : arith A) out0 out1 inp (f0 f1 : A) n,
    0 < n < 2 ^ 32 ->
    confined (fun m : mem A => pan2_vec ar m out0 out1 inp f0 f1 n) (range inp n) (fun a => range out0 n a \/ range out1 n a).
Proof. exact C74_pan2_vec_lemma. Qed.
Print Assumptions C74_pan2_vec.

Example C74_pan2_vec_ex :
  0 < 7 < 2 ^ 32 /\ match pan2_vec zarith (block 0 30 (fun a => a * a)) 2 10 20 5 6 7 with Ok m' => m' 8 <> Some 64 /\ m' 9 = Some 81 | _ => False end.
Proof. repeat (split; [first [lia | cbn; lia | intros _; apply Z.mod_divide; [discriminate|reflexivity]]|]). vm_compute. split; [discriminate|reflexivity]. Qed.

Theorem C74_pan2_slope_vec : 
  forall (A : Type) (ar : arith A) out0 out1 inp (f0 s0 f1 s1 : A) n,
    0 < n < 2 ^ 32 ->
    confined (fun m : mem A => pan2_slope_vec ar m out0 out1 inp f0 s0 f1 s1 n) (range inp n) (fun a => range out0 n a \/ range out1 n a).
Proof. exact C74_pan2_slope_vec_lemma. Qed.
Print Assumptions C74_pan2_slope_vec.

Example C74_pan2_slope_vec_ex :
  0 < 7 < 2 ^ 32 /\ match pan2_slope_vec zarith (block 0 30 (fun a => a * a)) 2 10 20 5 1 6 2 7 with Ok m' => m' 8 <> Some 64 /\ m' 9 = Some 81 | _ => False end.
Proof. repeat (split; [first [lia | cbn; lia | intros _; apply Z.mod_divide; [discriminate|reflexivity]]|]). vm_compute. split; [discriminate|reflexivity]. Qed.

(** Their SIMD forms. *)
Theorem C74_zerovec_simd : 
  forall (A : Type) (ar : arith A) (B : backend) dest n,
    in_place B dest -> loop_unit B <= n < 2 ^ 32 ->
    confined (fun m : mem A => zerovec_simd ar B m dest n) (fun _ => False) (range dest n).
Proof. exact C74_zerovec_simd_lemma. Qed.
Print Assumptions C74_zerovec_simd.

Example C74_zerovec_simd_ex :
  in_place ALTIVEC32 32 /\ loop_unit ALTIVEC32 <= 16 < 2 ^ 32 /\ match zerovec_simd zarith ALTIVEC32 (block 0 128 (fun a => a * a)) 32 16 with Ok m' => m' 47 <> Some 2209 /\ m' 48 = Some 2304 | _ => False end.
Proof. repeat (split; [first [lia | cbn; lia | intros _; apply Z.mod_divide; [discriminate|reflexivity]]|]). vm_compute. split; [discriminate|reflexivity]. Qed.

Theorem C74_zerovec_na_simd : 
  forall (A : Type) (ar : arith A) (B : backend) dest n,
    in_place B dest -> loop_unit B <= n < 2 ^ 32 ->
    confined (fun m : mem A => zerovec_na_simd ar B m dest n) (fun _ => False) (range dest n).
Proof. exact C74_zerovec_na_simd_lemma. Qed.
Print Assumptions C74_zerovec_na_simd.

Example C74_zerovec_na_simd_ex :
  in_place ALTIVEC32 32 /\ loop_unit ALTIVEC32 <= 16 < 2 ^ 32 /\ match zerovec_na_simd zarith ALTIVEC32 (block 0 128 (fun a => a * a)) 32 16 with Ok m' => m' 47 <> Some 2209 /\ m' 48 = Some 2304 | _ => False end.
Proof. repeat (split; [first [lia | cbn; lia | intros _; apply Z.mod_divide; [discriminate|reflexivity]]|]). vm_compute. split; [discriminate|reflexivity]. Qed.

Theorem C74_setvec_simd : 
  forall (A : Type) (B : backend) dest (f : A) n,
    in_place B dest -> loop_unit B <= n < 2 ^ 32 ->
    confined (fun m : mem A => setvec_simd B m dest f n) (fun _ => False) (range dest n).
Proof. exact C74_setvec_simd_lemma. Qed.
Print Assumptions C74_setvec_simd.

Example C74_setvec_simd_ex :
  in_place ALTIVEC32 32 /\ loop_unit ALTIVEC32 <= 16 < 2 ^ 32 /\ match setvec_simd ALTIVEC32 (block 0 128 (fun a => a * a)) 32 5 16 with Ok m' => m' 47 <> Some 2209 /\ m' 48 = Some 2304 | _ => False end.
Proof. repeat (split; [first [lia | cbn; lia | intros _; apply Z.mod_divide; [discriminate|reflexivity]]|]). vm_compute. split; [discriminate|reflexivity]. Qed.

Theorem C74_setvec_na_simd : 
  forall (A : Type) (B : backend) dest (f : A) n,
    in_place B dest -> loop_unit B <= n < 2 ^ 32 ->
    confined (fun m : mem A => setvec_na_simd B m dest f n) (fun _ => False) (range dest n).
Proof. exact C74_setvec_na_simd_lemma. Qed.
Print Assumptions C74_setvec_na_simd.

Example C74_setvec_na_simd_ex :
  in_place ALTIVEC32 32 /\ loop_unit ALTIVEC32 <= 16 < 2 ^ 32 /\ match setvec_na_simd ALTIVEC32 (block 0 128 (fun a => a * a)) 32 5 16 with Ok m' => m' 47 <> Some 2209 /\ m' 48 = Some 2304 | _ => False end.
Proof. repeat (split; [first [lia | cbn; lia | intros _; apply Z.mod_divide; [discriminate|reflexivity]]|]). vm_compute. split; [discriminate|reflexivity]. Qed.

Theorem C74_set_slope_vec_simd : 
  forall (A : Type) (ar : arith A) (B : backend) dest (f slope : A) n,
    in_place B dest -> loop_unit B <= n < 2 ^ 32 ->
    confined (fun m : mem A => set_slope_vec_simd ar B m dest f slope n) (fun _ => False) (range dest n).
Proof. exact C74_set_slope_vec_simd_lemma. Qed.
Print Assumptions C74_set_slope_vec_simd.

Example C74_set_slope_vec_simd_ex :
  in_place ALTIVEC32 32 /\ loop_unit ALTIVEC32 <= 16 < 2 ^ 32 /\ match set_slope_vec_simd zarith ALTIVEC32 (block 0 128 (fun a => a * a)) 32 5 3 16 with Ok m' => m' 47 <> Some 2209 /\ m' 48 = Some 2304 | _ => False end.
Proof. repeat (split; [first [lia | cbn; lia | intros _; apply Z.mod_divide; [discriminate|reflexivity]]|]). vm_compute. split; [discriminate|reflexivity]. Qed.

Theorem C74_set_exp_vec_simd : 
  forall (A : Type) (ar : arith A) (B : backend) dest (f curve : A) n,
    in_place B dest -> loop_unit B <= n < 2 ^ 32 ->
    confined (fun m : mem A => set_exp_vec_simd ar B m dest f curve n) (fun _ => False) (range dest n).
Proof. exact C74_set_exp_vec_simd_lemma. Qed.
Print Assumptions C74_set_exp_vec_simd.

Example C74_set_exp_vec_simd_ex :
  in_place ALTIVEC32 32 /\ loop_unit ALTIVEC32 <= 16 < 2 ^ 32 /\ match set_exp_vec_simd zarith ALTIVEC32 (block 0 128 (fun a => a * a)) 32 5 3 16 with Ok m' => m' 47 <> Some 2209 /\ m' 48 = Some 2304 | _ => False end.
Proof. repeat (split; [first [lia | cbn; lia | intros _; apply Z.mod_divide; [discriminate|reflexivity]]|]). vm_compute. split; [discriminate|reflexivity]. Qed.

Theorem C74_addvec_simd : 
  forall (A : Type) (ar : arith A) (B : backend) out inp n,
    in_place B out -> in_place B inp -> loop_unit B <= n < 2 ^ 32 ->
    confined (fun m : mem A => addvec_simd ar B m out inp n) (range inp n) (range out n).
Proof. exact C74_addvec_simd_lemma. Qed.
Print Assumptions C74_addvec_simd.

Example C74_addvec_simd_ex :
  in_place ALTIVEC32 32 /\ in_place ALTIVEC32 64 /\ loop_unit ALTIVEC32 <= 16 < 2 ^ 32 /\ match addvec_simd zarith ALTIVEC32 (block 0 128 (fun a => a * a)) 32 64 16 with Ok m' => m' 47 <> Some 2209 /\ m' 48 = Some 2304 | _ => False end.
Proof. repeat (split; [first [lia | cbn; lia | intros _; apply Z.mod_divide; [discriminate|reflexivity]]|]). vm_compute. split; [discriminate|reflexivity]. Qed.

Theorem C74_addvec_scalar_simd : 
  forall (A : Type) (ar : arith A) (B : backend) out (f : A) n,
    in_place B out -> loop_unit B <= n < 2 ^ 32 ->
    confined (fun m : mem A => addvec_scalar_simd ar B m out f n) (fun _ => False) (range out n).
Proof. exact C74_addvec_scalar_simd_lemma. Qed.
Print Assumptions C74_addvec_scalar_simd.

Example C74_addvec_scalar_simd_ex :
  in_place ALTIVEC32 32 /\ loop_unit ALTIVEC32 <= 16 < 2 ^ 32 /\ match addvec_scalar_simd zarith ALTIVEC32 (block 0 128 (fun a => a * a)) 32 5 16 with Ok m' => m' 47 <> Some 2209 /\ m' 48 = Some 2304 | _ => False end.
Proof. repeat (split; [first [lia | cbn; lia | intros _; apply Z.mod_divide; [discriminate|reflexivity]]|]). vm_compute. split; [discriminate|reflexivity]. Qed.

Theorem C74_pan2_vec_simd : 
  forall (A : Type) (ar : arith A) (B : backend) out0 out1 inp (f0 f1 : A) n,
    in_place B out0 -> in_place B out1 -> in_place B inp -> loop_unit B <= n < 2 ^ 32 ->
    confined (fun m : mem A => pan2_vec_simd ar B m out0 out1 inp f0 f1 n) (range inp n) (fun a => range out0 n a \/ range out1 n a).
Proof. exact C74_pan2_vec_simd_lemma. Qed.
Print Assumptions C74_pan2_vec_simd.

Example C74_pan2_vec_simd_ex :
  in_place ALTIVEC32 32 /\ in_place ALTIVEC32 64 /\ in_place ALTIVEC32 96 /\ loop_unit ALTIVEC32 <= 16 < 2 ^ 32 /\ match pan2_vec_simd zarith ALTIVEC32 (block 0 128 (fun a => a * a)) 32 64 96 5 6 16 with Ok m' => m' 47 <> Some 2209 /\ m' 48 = Some 2304 | _ => False end.
Proof. repeat (split; [first [lia | cbn; lia | intros _; apply Z.mod_divide; [discriminate|reflexivity]]|]). vm_compute. split; [discriminate|reflexivity]. Qed.

Theorem C74_pan2_slope_vec_simd : 
  forall (A : Type) (ar : arith A) (B : backend) out0 out1 inp (f0 s0 f1 s1 : A) n,
    in_place B out0 -> in_place B out1 -> in_place B inp -> loop_unit B <= n < 2 ^ 32 ->
    confined (fun m : mem A => pan2_slope_vec_simd ar B m out0 out1 inp f0 s0 f1 s1 n) (range inp n) (fun a => range out0 n a \/ range out1 n a).
Proof. exact C74_pan2_slope_vec_simd_lemma. Qed.
Print Assumptions C74_pan2_slope_vec_simd.

Example C74_pan2_slope_vec_simd_ex :
  in_place ALTIVEC32 32 /\ in_place ALTIVEC32 64 /\ in_place ALTIVEC32 96 /\ loop_unit ALTIVEC32 <= 16 < 2 ^ 32 /\ match pan2_slope_vec_simd zarith ALTIVEC32 (block 0 128 (fun a => a * a)) 32 64 96 5 1 6 2 16 with Ok m' => m' 47 <> Some 2209 /\ m' 48 = Some 2304 | _ => False end.
Proof. repeat (split; [first [lia | cbn; lia | intros _; apply Z.mod_divide; [discriminate|reflexivity]]|]). vm_compute. split; [discriminate|reflexivity]. Qed.

(** The SIMD copies read one vector beyond the source, *)
Theorem C74_copyvec_simd : 
  forall (A : Type) (B : backend) (src_aligned dest_aligned : bool) dest src n,
    in_place B dest -> in_place B src -> loop_unit B <= n < 2 ^ 32 ->
    confined (fun m : mem A => copyvec_simd_gen B src_aligned dest_aligned m dest src n) (range src (n + Z.of_nat (vsize B))) (range dest n).
Proof. exact C74_copyvec_simd_lemma. Qed.
Print Assumptions C74_copyvec_simd.

Example C74_copyvec_simd_ex :
  in_place ALTIVEC32 32 /\ in_place ALTIVEC32 64 /\ loop_unit ALTIVEC32 <= 16 < 2 ^ 32 /\ match copyvec_simd_gen ALTIVEC32 true true (block 0 128 (fun a => a * a)) 32 64 16 with Ok m' => m' 47 <> Some 2209 /\ m' 48 = Some 2304 | _ => False end.
Proof. repeat (split; [first [lia | cbn; lia | intros _; apply Z.mod_divide; [discriminate|reflexivity]]|]). vm_compute. split; [discriminate|reflexivity]. Qed.

(** and that reading is observable; *)
Theorem C74_copy_within_source_refuted : 
  ~ confined (fun m : mem Z => copyvec_simd SSE32 m 32 64 16) (range 64 16) (range 32 16).
Proof. exact C74_copy_within_source_refuted_lemma. Qed.
Print Assumptions C74_copy_within_source_refuted.

(** with a misaligned pointer, Altivec writes below the destination. *)
Theorem C74_misaligned_altivec_refuted : 
  ~ confined (fun m : mem Z => setvec_na_simd ALTIVEC32 m 33 7 16) (fun _ => False) (range 33 16).
Proof. exact C74_misaligned_altivec_refuted_lemma. Qed.
Print Assumptions C74_misaligned_altivec_refuted.

(** Calls none of which writes what another reads or writes can be made in any order. *)
Theorem C74_any_order : 
  forall (A : Type) (jobs jobs' : list (job A)) (m : mem A),
    Permutation jobs jobs' ->
    Forall (fun j : job A => let '(call, R, W) := j in confined call R W) jobs -> ForallOrdPairs independent jobs ->
    same_effect (perform jobs m) (perform jobs' m).
Proof. exact C74_any_order_lemma. Qed.
Print Assumptions C74_any_order.

(** Calls on one memory. *)
Definition C74_jobs : list (job Z) :=
  [ (fun m => unary_vec Z.opp m 0 20 10, range 20 10, range 0 10);
    (fun m => addvec zarith m 10 20 10, range 20 10, range 10 10);
    (fun m => setvec_simd SSE32 m 32 5 16, fun _ => False, range 32 16) ].
(** Three calls that share an input. *)
Example C74_any_order_ex :
  Forall (fun j : job Z => let '(call, R, W) := j in confined call R W) C74_jobs /\ ForallOrdPairs independent C74_jobs /\
  match perform C74_jobs (block 0 64 (fun a => a)) with Ok m' => map m' [3; 13; 33; 50] = map Some [-23; 36; 5; 50] | _ => False end.
Proof.
  split; [|split].
  - constructor; [apply (C74_unary_vec Z zarith); lia|]. constructor; [apply C74_addvec; lia|]. constructor; [|constructor].
    apply C74_setvec_simd; [intro E; discriminate|cbn; lia].
  - repeat constructor; intros x; unfold range; lia.
  - vm_compute. reflexivity.
Qed.
