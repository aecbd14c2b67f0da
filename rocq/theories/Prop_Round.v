(** C38-C41, C43, C44: rounding and integer vectors. *)
From Coq Require Import ZArith Reals List Lia Bool Lra.
From Flocq Require Import Core IEEE754.Binary IEEE754.Bits.
From Verif Require Import
  Base Mem Backend Args Drivers Functors Lanes Float LaneOps FloatOps ScalarMath VecMath FloatFuns IntVec Spec SpecLane SpecRound SpecInt
  FloatFacts LaneFacts LaneMore FloatRound ReduceMore VecFacts VecMore VecMore2 RoundFacts RoundMore RoundMore2 IntFacts LdexpFacts ExData ExFloat ExLane ExRound RoundClaims.
Import ListNotations.
Local Open Scope Z_scope.

(** * C38: round *)

(** The scalar round gives the nearest integer, halves away from zero, and keeps the
    sign of a zero result. *)
Theorem C38_scalar_round : 
  forall t (n : nans t) (x : F t), isfin x = true ->
    exists k, is_int (s_round n x) k /\ nearest_away (val x) k /\ sgn (s_round n x) = sgn x.
Proof. exact C38_scalar_round_lemma. Qed.
Print Assumptions C38_scalar_round.

Example C38_scalar_round_ex :
  isfin (f_lit F64 (-5) (-1)) = true.
Proof. reflexivity. Qed.

(** With SSE4.1 and AVX: the nearest integer, halves to the even one. *)
Theorem C38_round_instruction : 
  forall t (n : nans t) (c : cfg) (I : isa) (x : F t),
    I = AVX \/ (I = SSE /\ has_sse41 c = true) -> isfin x = true ->
    exists k, is_int (vround c I n x) k /\ nearest_even (val x) k /\ sgn (vround c I n x) = sgn x.
Proof. exact C38_round_instruction_lemma. Qed.
Print Assumptions C38_round_instruction.

Example C38_round_instruction_ex :
  let c := all_ext in (SSE = AVX \/ (SSE = SSE /\ has_sse41 c = true)) /\ isfin (f_lit F32 (-5) (-1)) = true.
Proof. split; [right; split; reflexivity|reflexivity]. Qed.

(** vec_round_float does the same, without the instruction, for every number up to
    2^23. *)
Theorem C38_magic_round : 
  forall (n : nans F32) (c : cfg) (I : isa) (x : F F32), within_2_23 x ->
    exists k, is_int (vec_round_float c I n x) k /\ nearest_even (val x) k /\ sgn (vec_round_float c I n x) = sgn x.
Proof. exact C38_magic_round_lemma. Qed.
Print Assumptions C38_magic_round.

Example C38_magic_round_ex :
  within_2_23 (f_lit F32 (-16777215) (-1)) /\ within_2_23 (f_lit F32 1 (-149)) /\ within_2_23 (f_lit F32 1 23).
Proof. fitrn. Qed.

(** So the two forms that an SSE build can have agree bit for bit there. *)
Theorem C38_magic_round_is_the_instruction : 
  forall (n : nans F32) (c c' : cfg) (I : isa) (x : F F32), within_2_23 x -> has_sse41 c' = true ->
    bits (vec_round_float c I n x) = bits (vround c' SSE n x).
Proof. exact C38_magic_round_is_the_instruction_lemma. Qed.
Print Assumptions C38_magic_round_is_the_instruction.

Example C38_magic_round_is_the_instruction_ex :
  within_2_23 (f_lit F32 (-3) (-1)) /\ has_sse41 all_ext = true.
Proof. fitrn. Qed.

(** Beyond 2^23 it changes every odd integer (up to 2^24) by one. *)
Theorem C38_magic_round_beyond : 
  forall (n : nans F32) (c : cfg) (I : isa) (k : Z), 2 ^ 23 < k < 2 ^ 24 -> Z.odd k = true ->
    is_int (f_ofZ F32 k) k /\
    exists j, is_int (vec_round_float c I n (f_ofZ F32 k)) j /\ Z.even j = true /\ Z.abs (k - j) = 1.
Proof. exact C38_magic_round_beyond_lemma. Qed.
Print Assumptions C38_magic_round_beyond.

Example C38_magic_round_beyond_ex :
  2 ^ 23 < 8388609 < 2 ^ 24 /\ Z.odd 8388609 = true.
Proof. split; [lia|reflexivity]. Qed.

(** So without the bound the statement is false. *)
Theorem C38_magic_round_unrestricted_refuted : 
  exists x : F F32, isfin x = true /\ ~ exists k, is_int (vec_round_float no_ext SSE (n0 F32) x) k /\ nearest_even (val x) k.
Proof. exact C38_magic_round_unrestricted_refuted_lemma. Qed.
Print Assumptions C38_magic_round_unrestricted_refuted.

(** A number that is not half an odd integer is rounded the same, bit for bit, by the
    scalar and by every vector form. *)
Theorem C38_forms_agree_off_ties : 
  forall (c : cfg) (B : backend) (n : nans (fmt_of B)) (x : F (fmt_of B)),
    within_2_23 x -> ~ tie (val x) ->
    vround c (isa_of B) n x = s_round n x.
Proof. exact C38_forms_agree_off_ties_lemma. Qed.
Print Assumptions C38_forms_agree_off_ties.

Example C38_forms_agree_off_ties_ex :
  within_2_23 (f_lit (fmt_of NEON32) (-7) (-2)) /\ ~ tie (val (f_lit (fmt_of NEON32) (-7) (-2))).
Proof. fitrn. Qed.

(** A positive half above an even number: the vector forms go down, the scalar one
    up. *)
Theorem C38_ties_differ : 
  forall (n : nans F32) (c : cfg) (I : isa) (x : F F32) (j : Z),
    I <> GEN -> within_2_23 x -> 0 <= j -> Z.even j = true -> val x = (IZR j + / 2)%R ->
    is_int (vround c I n x) j /\ is_int (s_round n x) (j + 1).
Proof. exact C38_ties_differ_lemma. Qed.
Print Assumptions C38_ties_differ.

Example C38_ties_differ_ex :
  let x := f_lit F32 5 (-1) in SSE <> GEN /\ within_2_23 x /\ 0 <= 2 /\ Z.even 2 = true /\ val x = (IZR 2 + / 2)%R.
Proof. fitrn. rewrite lit_val; [cbn; lra|cbv; congruence..]. Qed.

(** The buffer functions. *)
Theorem C38_round_vec_simd_equals_round_vec : 
  forall (c : cfg) (B : backend) (n : nans (fmt_of B)) (m : mem (F (fmt_of B))) (out inp len : Z),
    legal_simd_length B len -> aligned B out -> accessible m out len -> simd_fit B m out len (APtr inp) ->
    each (fun x => within_2_23 x /\ ~ tie (val x)) m inp len ->
    same_effect (round_vec B n m out inp len) (round_vec_simd c B n m out inp len).
Proof. exact C38_round_vec_simd_equals_round_vec_lemma. Qed.
Print Assumptions C38_round_vec_simd_equals_round_vec.

Example C38_round_vec_simd_equals_round_vec_ex :
  let m := block 0 80 (fun a => f_lit F32 (4 * a - 201) (-3)) in
  legal_simd_length AVX32 32 /\ aligned AVX32 32 /\ accessible m 32 32 /\ simd_fit AVX32 m 32 32 (APtr 40) /\ each (fun x => within_2_23 x /\ ~ tie (val x)) m 40 32.
Proof. fitrn. Qed.

(** The template that the two specialisations replace, floor(x + 0.5), is no
    rounding to nearest: it takes the largest float below 0.5 to 1. *)
Theorem C38_floor_of_x_plus_half_refuted : 
  exists x : F F32, isfin x = true /\ (Rabs (val x) < / 2)%R /\ is_int (s_round_fallback (n0 F32) x) 1.
Proof. exact C38_floor_of_x_plus_half_refuted_lemma. Qed.
Print Assumptions C38_floor_of_x_plus_half_refuted.

(** * C39: floor and ceil *)

(** The scalar functions, for every finite number. *)
Theorem C39_scalar_floor_and_ceil : 
  forall t (n : nans t) (x : F t), isfin x = true ->
    (exists k, is_int (s_floor n x) k /\ floor_of (val x) k /\ sgn (s_floor n x) = sgn x) /\
    (exists k, is_int (s_ceil n x) k /\ ceil_of (val x) k /\ sgn (s_ceil n x) = sgn x).
Proof. exact C39_scalar_floor_and_ceil_lemma. Qed.
Print Assumptions C39_scalar_floor_and_ceil.

Example C39_scalar_floor_and_ceil_ex :
  isfin (f_lit F64 (-5) (-1)) = true.
Proof. reflexivity. Qed.

(** vec_floor_float for every number up to 2^23. *)
Theorem C39_magic_floor : 
  forall (n : nans F32) (c : cfg) (I : isa) (x : F F32), within_2_23 x ->
    exists k, is_int (vec_floor_float c I n x) k /\ floor_of (val x) k /\ sgn (vec_floor_float c I n x) = sgn x.
Proof. exact C39_magic_floor_lemma. Qed.
Print Assumptions C39_magic_floor.

Example C39_magic_floor_ex :
  within_2_23 (f_lit F32 (-1) (-149)) /\ within_2_23 (f_lit F32 (-1) 23).
Proof. fitrn. Qed.

(** vec_ceil_float likewise; a zero result always is +0. *)
Theorem C39_magic_ceil : 
  forall (n : nans F32) (c : cfg) (I : isa) (x : F F32), within_2_23 x ->
    exists k, is_int (vec_ceil_float c I n x) k /\ ceil_of (val x) k /\ (k = 0 -> sgn (vec_ceil_float c I n x) = false).
Proof. exact C39_magic_ceil_lemma. Qed.
Print Assumptions C39_magic_ceil.

Example C39_magic_ceil_ex :
  within_2_23 (f_lit F32 (-1) (-149)) /\ within_2_23 (f_lit F32 (-1) 23).
Proof. fitrn. Qed.

(** floor agrees bit for bit on every back-end. *)
Theorem C39_floor_forms_agree : 
  forall (c : cfg) (B : backend) (n : nans (fmt_of B)) (x : F (fmt_of B)),
    within_2_23 x -> bits (vfloor c (isa_of B) n x) = bits (s_floor n x).
Proof. exact C39_floor_forms_agree_lemma. Qed.
Print Assumptions C39_floor_forms_agree.

Example C39_floor_forms_agree_ex :
  within_2_23 (f_lit (fmt_of NEON32) (-7) (-2)).
Proof. fitrn. Qed.

(** ceil agrees as a number; *)
Theorem C39_ceil_forms_agree : 
  forall (c : cfg) (B : backend) (n : nans (fmt_of B)) (x : F (fmt_of B)),
    within_2_23 x -> feq (s_ceil n x) (vceil c (isa_of B) n x) = true.
Proof. exact C39_ceil_forms_agree_lemma. Qed.
Print Assumptions C39_ceil_forms_agree.

Example C39_ceil_forms_agree_ex :
  within_2_23 (f_lit (fmt_of NEON32) (-7) (-2)).
Proof. fitrn. Qed.

(** but between -1 and 0 vec_ceil_float gives +0 where the scalar function gives
    -0. *)
Theorem C39_ceil_zero_sign : 
  forall (n : nans F32) (c : cfg) (I : isa) (x : F F32),
    isfin x = true -> sgn x = true -> (-1 < val x)%R ->
    bits (vec_ceil_float c I n x) = 0 /\ bits (s_ceil n x) = 2 ^ 31.
Proof. exact C39_ceil_zero_sign_lemma. Qed.
Print Assumptions C39_ceil_zero_sign.

Example C39_ceil_zero_sign_ex :
  let x := f_lit F32 (-1) (-1) in isfin x = true /\ sgn x = true /\ (-1 < val x)%R.
Proof. fitrn. rewrite lit_val; [cbn; lra|cbv; congruence..]. Qed.

(** Beyond 2^23: of an integer k, floor is k-1 when k = 1 modulo 4, and ceil is k+1
    when k = 3 modulo 4. *)
Theorem C39_magic_floor_and_ceil_beyond : 
  forall (n : nans F32) (c : cfg) (I : isa) (k : Z), 2 ^ 23 < k < 2 ^ 24 - 1 ->
    is_int (f_ofZ F32 k) k /\
    (k mod 4 = 1 -> is_int (vec_floor_float c I n (f_ofZ F32 k)) (k - 1)) /\
    (k mod 4 = 3 -> is_int (vec_ceil_float c I n (f_ofZ F32 k)) (k + 1)).
Proof. exact C39_magic_floor_and_ceil_beyond_lemma. Qed.
Print Assumptions C39_magic_floor_and_ceil_beyond.

Example C39_magic_floor_and_ceil_beyond_ex :
  2 ^ 23 < 8388609 < 2 ^ 24 - 1 /\ 8388609 mod 4 = 1 /\ 8388611 mod 4 = 3.
Proof. split; [lia|split; reflexivity]. Qed.

(** The buffer functions: the same buffer for floor, *)
Theorem C39_floor_vec_simd_equals_floor_vec : 
  forall (c : cfg) (B : backend) (n : nans (fmt_of B)) (m : mem (F (fmt_of B))) (out inp len : Z),
    legal_simd_length B len -> aligned B out -> accessible m out len -> simd_fit B m out len (APtr inp) ->
    each within_2_23 m inp len ->
    same_effect (floor_vec B n m out inp len) (floor_vec_simd c B n m out inp len).
Proof. exact C39_floor_vec_simd_equals_floor_vec_lemma. Qed.
Print Assumptions C39_floor_vec_simd_equals_floor_vec.

Example C39_floor_vec_simd_equals_floor_vec_ex :
  let m := block 0 80 (fun a => f_lit F32 (4 * a - 201) (-3)) in
  legal_simd_length AVX32 32 /\ aligned AVX32 32 /\ accessible m 32 32 /\ simd_fit AVX32 m 32 32 (APtr 40) /\ each within_2_23 m 40 32.
Proof. fitrn. Qed.

(** equal numbers for ceil. *)
Theorem C39_ceil_vec_simd_matches_ceil_vec : 
  forall (c : cfg) (B : backend) (n : nans (fmt_of B)) (m : mem (F (fmt_of B))) (out inp len : Z),
    legal_simd_length B len -> aligned B out -> accessible m out len -> simd_fit B m out len (APtr inp) ->
    each within_2_23 m inp len ->
    same_numbers (ceil_vec B n m out inp len) (ceil_vec_simd c B n m out inp len) out len.
Proof. exact C39_ceil_vec_simd_matches_ceil_vec_lemma. Qed.
Print Assumptions C39_ceil_vec_simd_matches_ceil_vec.

Example C39_ceil_vec_simd_matches_ceil_vec_ex :
  let m := block 0 80 (fun a => f_lit F32 (4 * a - 201) (-3)) in
  legal_simd_length AVX32 32 /\ aligned AVX32 32 /\ accessible m 32 32 /\ simd_fit AVX32 m 32 32 (APtr 40) /\ each within_2_23 m 40 32.
Proof. fitrn. Qed.

(** * C40: frac *)

(** For every finite number, 1 included. *)
Theorem C40_frac_lies_between_0_and_1 : 
  forall t (n : nans t) (x : F t), isfin x = true ->
    isfin (s_frac n x) = true /\ (0 <= val (s_frac n x) <= 1)%R.
Proof. exact C40_frac_lies_between_0_and_1_lemma. Qed.
Print Assumptions C40_frac_lies_between_0_and_1.

Example C40_frac_lies_between_0_and_1_ex :
  isfin (f_lit F32 (-1) (-149)) = true.
Proof. reflexivity. Qed.

(** Above 0 (and up to -1/2) the difference is representable and frac is exact. *)
Theorem C40_frac_is_exact : 
  forall t (n : nans t) (x : F t), isfin x = true -> (0 <= val x \/ val x <= - / 2)%R ->
    exists k, floor_of (val x) k /\ (val (s_frac n x) = val x - IZR k)%R.
Proof. exact C40_frac_is_exact_lemma. Qed.
Print Assumptions C40_frac_is_exact.

Example C40_frac_is_exact_ex :
  let x := f_lit F32 5 (-2) in isfin x = true /\ (0 <= val x \/ val x <= - / 2)%R.
Proof. fitrn. left. rewrite lit_val; [cbn; lra|cbv; congruence..]. Qed.

(** In between it is the representable number nearest to the fractional part. *)
Theorem C40_frac_is_the_nearest_float : 
  forall t (n : nans t) (x y : F t), isfin x = true -> isfin y = true ->
    exists k, floor_of (val x) k /\
      (Rabs (val (s_frac n x) - (val x - IZR k)) <= Rabs (val y - (val x - IZR k)))%R.
Proof. exact C40_frac_is_the_nearest_float_lemma. Qed.
Print Assumptions C40_frac_is_the_nearest_float.

Example C40_frac_is_the_nearest_float_ex :
  isfin (f_lit F32 (-1) (-30)) = true /\ isfin (f_ofZ F32 1) = true.
Proof. split; reflexivity. Qed.

(** and that is 1 for every negative number down to -2^-25 (double: -2^-54). *)
Theorem C40_frac_of_tiny_negative_is_one : 
  forall t (n : nans t) (x : F t), isfin x = true ->
    (- bpow radix2 (match t with F32 => -25 | F64 => -54 end) <= val x < 0)%R -> (val (s_frac n x) = 1)%R.
Proof. exact C40_frac_of_tiny_negative_is_one_lemma. Qed.
Print Assumptions C40_frac_of_tiny_negative_is_one.

Example C40_frac_of_tiny_negative_is_one_ex :
  let x := f_lit F32 (-1) (-25) in isfin x = true /\ (- bpow radix2 (-25) <= val x < 0)%R.
Proof. fitrn; (rewrite lit_val; [cbn; lra|cbv; congruence..]). Qed.

(** So the range is not [0,1). *)
Theorem C40_frac_below_one_refuted : 
  exists x : F F32, isfin x = true /\ ~ (val (s_frac (n0 F32) x) < 1)%R.
Proof. exact C40_frac_below_one_refuted_lemma. Qed.
Print Assumptions C40_frac_below_one_refuted.

(** Every back-end computes the same frac up to 2^23; *)
Theorem C40_frac_forms_agree : 
  forall (c : cfg) (B : backend) (n : nans (fmt_of B)) (x : F (fmt_of B)),
    within_2_23 x -> bits (vfrac c (isa_of B) n x) = bits (s_frac n x).
Proof. exact C40_frac_forms_agree_lemma. Qed.
Print Assumptions C40_frac_forms_agree.

Example C40_frac_forms_agree_ex :
  within_2_23 (f_lit (fmt_of SSE32) (-7) (-2)).
Proof. fitrn. Qed.

(** beyond it, SSE without SSE4.1 and NEON take frac of the integers k = 1 modulo 4
    to be 1. *)
Theorem C40_magic_frac_beyond : 
  forall (n : nans F32) (c : cfg) (I : isa) (k : Z),
    (I = SSE /\ has_sse41 c = false) \/ I = NEON ->
    2 ^ 23 < k < 2 ^ 24 - 1 -> k mod 4 = 1 ->
    is_int (vfrac c I n (f_ofZ F32 k)) 1 /\ is_int (s_frac n (f_ofZ F32 k)) 0.
Proof. exact C40_magic_frac_beyond_lemma. Qed.
Print Assumptions C40_magic_frac_beyond.

Example C40_magic_frac_beyond_ex :
  let c := no_ext in ((SSE = SSE /\ has_sse41 c = false) \/ SSE = NEON) /\ 2 ^ 23 < 8388609 < 2 ^ 24 - 1 /\ 8388609 mod 4 = 1.
Proof. split; [left; split; reflexivity|split; [lia|reflexivity]]. Qed.

(** The buffer functions. *)
Theorem C40_frac_vec_simd_equals_frac_vec : 
  forall (c : cfg) (B : backend) (n : nans (fmt_of B)) (m : mem (F (fmt_of B))) (out inp len : Z),
    legal_simd_length B len -> aligned B out -> accessible m out len -> simd_fit B m out len (APtr inp) ->
    each within_2_23 m inp len ->
    same_effect (frac_vec B n m out inp len) (frac_vec_simd c B n m out inp len).
Proof. exact C40_frac_vec_simd_equals_frac_vec_lemma. Qed.
Print Assumptions C40_frac_vec_simd_equals_frac_vec.

Example C40_frac_vec_simd_equals_frac_vec_ex :
  let m := block 0 80 (fun a => f_lit F32 (4 * a - 201) (-3)) in
  legal_simd_length AVX32 32 /\ aligned AVX32 32 /\ accessible m 32 32 /\ simd_fit AVX32 m 32 32 (APtr 40) /\ each within_2_23 m 40 32.
Proof. fitrn. Qed.

(** * C41: trunc *)

(** When the truncated value fits a 64-bit long, the scalar function returns it. *)
Theorem C41_scalar_trunc : 
  forall t (n : nans t) (x : F t) (k : Z), isfin x = true -> trunc_of (val x) k -> - 2 ^ 63 <= k < 2 ^ 63 ->
    exists y, s_trunc x = Ok y /\ is_int y k.
Proof. exact C41_scalar_trunc_lemma. Qed.
Print Assumptions C41_scalar_trunc.

Example C41_scalar_trunc_ex :
  let x := f_lit F32 (-7) (-1) in isfin x = true /\ trunc_of (val x) (-3) /\ - 2 ^ 63 <= -3 < 2 ^ 63.
Proof. fitrn. rewrite lit_val; [|cbv; congruence..]. unfold trunc_of, floor_of, ceil_of. cbn. split; intros; lra. Qed.

(** Otherwise -- infinities, NaN, magnitudes from 2^63 on -- the conversion is
    undefined. *)
Theorem C41_scalar_trunc_undefined : 
  forall t (x : F t),
    isfin x = false \/ (val x <= - IZR (2 ^ 63) - 1)%R \/ (IZR (2 ^ 63) <= val x)%R ->
    s_trunc x = Fault BadConversion.
Proof. exact C41_scalar_trunc_undefined_lemma. Qed.
Print Assumptions C41_scalar_trunc_undefined.

Example C41_scalar_trunc_undefined_ex :
  isfin (of_bits F32 0x7f800000) = false \/ (val (of_bits F32 0x7f800000) <= - IZR (2 ^ 63) - 1)%R \/ (IZR (2 ^ 63) <= val (of_bits F32 0x7f800000))%R.
Proof. left. reflexivity. Qed.

(** SSE4.1 and AVX truncate every finite number, *)
Theorem C41_trunc_instruction : 
  forall t (n : nans t) (c : cfg) (I : isa) (x : F t),
    I = AVX \/ (I = SSE /\ has_sse41 c = true) -> isfin x = true ->
    exists y k, vtrunc c I n x = Ok y /\ is_int y k /\ trunc_of (val x) k /\ sgn y = sgn x.
Proof. exact C41_trunc_instruction_lemma. Qed.
Print Assumptions C41_trunc_instruction.

Example C41_trunc_instruction_ex :
  (AVX = AVX \/ (AVX = SSE /\ has_sse41 all_ext = true)) /\ isfin (f_lit F32 (-7) 99) = true.
Proof. split; [left; reflexivity|reflexivity]. Qed.

(** and keep infinities. *)
Theorem C41_trunc_instruction_on_infinities : 
  forall t (n : nans t) (c : cfg) (I : isa) (x : F t),
    I = AVX \/ (I = SSE /\ has_sse41 c = true) -> isfin x = false -> isnan x = false ->
    vtrunc c I n x = Ok x.
Proof. exact C41_trunc_instruction_on_infinities_lemma. Qed.
Print Assumptions C41_trunc_instruction_on_infinities.

Example C41_trunc_instruction_on_infinities_ex :
  (AVX = AVX \/ (AVX = SSE /\ has_sse41 all_ext = true)) /\ isfin (of_bits F64 0x7ff0000000000000) = false /\ isnan (of_bits F64 0x7ff0000000000000) = false.
Proof. split; [left; reflexivity|split; reflexivity]. Qed.

(** Where the scalar function is defined, the other back-ends but Altivec return the
    same number. *)
Theorem C41_trunc_forms_agree : 
  forall t (n : nans t) (c : cfg) (I : isa) (x y z : F t),
    I <> ALTIVEC -> s_trunc x = Ok y -> vtrunc c I n x = Ok z -> feq y z = true.
Proof. exact C41_trunc_forms_agree_lemma. Qed.
Print Assumptions C41_trunc_forms_agree.

Example C41_trunc_forms_agree_ex :
  exists y z, AVX <> ALTIVEC /\ s_trunc (f_lit F32 (-7) (-1)) = Ok y /\ vtrunc all_ext AVX (n0 F32) (f_lit F32 (-7) (-1)) = Ok z.
Proof. eexists. eexists. split; [discriminate|split; reflexivity]. Qed.

(** On Altivec every negative number (minus infinity included) is truncated to 0; *)
Theorem C41_altivec_trunc_of_negative : 
  forall (n : nans F32) (c : cfg) (x : F F32), flt x (f_ofZ F32 0) = true ->
    exists y, vtrunc c ALTIVEC n x = Ok y /\ bits y = 0.
Proof. exact C41_altivec_trunc_of_negative_lemma. Qed.
Print Assumptions C41_altivec_trunc_of_negative.

Example C41_altivec_trunc_of_negative_ex :
  flt (f_lit F32 (-7) 99) (f_ofZ F32 0) = true.
Proof. reflexivity. Qed.

(** other numbers are truncated below 2^32 and give 2^32 from there on. *)
Theorem C41_altivec_trunc_of_positive : 
  forall (n : nans F32) (c : cfg) (x : F F32), isfin x = true ->
    (forall k, (0 <= val x)%R -> floor_of (val x) k -> k < 2 ^ 32 -> exists y, vtrunc c ALTIVEC n x = Ok y /\ is_int y k) /\
    ((IZR (2 ^ 32) <= val x)%R -> exists y, vtrunc c ALTIVEC n x = Ok y /\ is_int y (2 ^ 32)).
Proof. exact C41_altivec_trunc_of_positive_lemma. Qed.
Print Assumptions C41_altivec_trunc_of_positive.

Example C41_altivec_trunc_of_positive_ex :
  let x := f_lit F32 7 (-1) in isfin x = true /\ (0 <= val x)%R /\ floor_of (val x) 3 /\ 3 < 2 ^ 32.
Proof. fitrn; (rewrite lit_val; [unfold floor_of; cbn; lra|cbv; congruence..]). Qed.

(** * C43: integer vectors *)

(** Sum and difference modulo 2^32 in each lane, on every back-end (AVX by halves). *)
Theorem C43_add_and_sub : 
  forall (I : isa) (l r : list Z), vector (ilanes I) l -> vector (ilanes I) r ->
    lanes2 (fun a b c => pattern c /\ same_mod32 c (a + b)) l r (int_add I l r) /\
    lanes2 (fun a b c => pattern c /\ same_mod32 c (a - b)) l r (int_sub I l r).
Proof. exact C43_add_and_sub_lemma. Qed.
Print Assumptions C43_add_and_sub.

Example C43_add_and_sub_ex :
  vector (ilanes AVX) [1; 4294967295; 0; 7; 2147483648; 5; 6; 4294967290] /\ vector (ilanes AVX) [4294967295; 1; 0; 9; 1; 1; 1; 1].
Proof. fitrn. Qed.

(** Less and greater give all ones or zero; SSE and AVX read two's complement
    numbers, *)
Theorem C43_signed_comparisons : 
  forall (I : isa) (l r : list Z), I = SSE \/ I = AVX -> vector (ilanes I) l -> vector (ilanes I) r ->
    lanes2 (fun a b c => forall ka kb, reads a ka -> reads b kb -> truth (ka < kb) c) l r (int_mask_lt I l r) /\
    lanes2 (fun a b c => forall ka kb, reads a ka -> reads b kb -> truth (ka > kb) c) l r (int_mask_gt I l r).
Proof. exact C43_signed_comparisons_lemma. Qed.
Print Assumptions C43_signed_comparisons.

Example C43_signed_comparisons_ex :
  (AVX = SSE \/ AVX = AVX) /\ vector (ilanes AVX) [1; 4294967295; 0; 7; 2147483648; 5; 6; 4294967290] /\ vector (ilanes AVX) [4294967295; 1; 0; 9; 1; 1; 1; 1] /\ reads 4294967295 (-1) /\ reads 7 7.
Proof. split; [right; reflexivity|]. fitrn. Qed.

(** NEON and Altivec unsigned ones. *)
Theorem C43_unsigned_comparisons : 
  forall (I : isa) (l r : list Z), I = NEON \/ I = ALTIVEC -> vector (ilanes I) l -> vector (ilanes I) r ->
    lanes2 (fun a b c => truth (a < b) c) l r (int_mask_lt I l r) /\
    lanes2 (fun a b c => truth (a > b) c) l r (int_mask_gt I l r).
Proof. exact C43_unsigned_comparisons_lemma. Qed.
Print Assumptions C43_unsigned_comparisons.

Example C43_unsigned_comparisons_ex :
  (NEON = NEON \/ NEON = ALTIVEC) /\ vector (ilanes NEON) [1; 2; 3; 4294967295] /\ vector (ilanes NEON) [0; 2; 4; 0].
Proof. split; [left; reflexivity|]. fitrn. Qed.

(** They agree exactly when both numbers have the same top bit. *)
Theorem C43_comparisons_differ : 
  forall a b, pattern a -> pattern b ->
    (ilt SSE a b = ilt NEON a b <-> (a < 2147483648 <-> b < 2147483648)) /\
    (igt SSE a b = igt NEON a b <-> (a < 2147483648 <-> b < 2147483648)).
Proof. exact C43_comparisons_differ_lemma. Qed.
Print Assumptions C43_comparisons_differ.

Example C43_comparisons_differ_ex :
  pattern 4294967295 /\ pattern 1.
Proof. split; split; lia. Qed.

(** Equality is the same everywhere. *)
Theorem C43_equality : 
  forall (I : isa) (l r : list Z), vector (ilanes I) l -> vector (ilanes I) r ->
    lanes2 (fun a b c => truth (a = b) c) l r (int_mask_eq I l r).
Proof. exact C43_equality_lemma. Qed.
Print Assumptions C43_equality.

Example C43_equality_ex :
  vector (ilanes AVX) [1; 4294967295; 0; 7; 2147483648; 5; 6; 4294967290] /\ vector (ilanes AVX) [4294967295; 1; 0; 9; 1; 1; 1; 1].
Proof. fitrn. Qed.

(** And, and-not bit by bit; and-not complements the first operand on SSE and AVX, the
    second on NEON and Altivec. *)
Theorem C43_and_andnot : 
  forall (I : isa) (l r : list Z), vector (ilanes I) l -> vector (ilanes I) r ->
    lanes2 (fun a b c => forall j, 0 <= j < 32 -> Z.testbit c j = Z.testbit a j && Z.testbit b j) l r (int_and I l r) /\
    lanes2 (fun a b c => forall j, 0 <= j < 32 -> Z.testbit c j =
      match I with NEON | ALTIVEC => Z.testbit a j && negb (Z.testbit b j) | _ => negb (Z.testbit a j) && Z.testbit b j end) l r (int_andnot I l r).
Proof. exact C43_and_andnot_lemma. Qed.
Print Assumptions C43_and_andnot.

Example C43_and_andnot_ex :
  vector (ilanes AVX) [1; 4294967295; 0; 7; 2147483648; 5; 6; 4294967290] /\ vector (ilanes AVX) [4294967295; 1; 0; 9; 1; 1; 1; 1].
Proof. fitrn. Qed.

(** Shifts by 0 to 31: multiplication modulo 2^32, and division rounding down. *)
Theorem C43_shifts : 
  forall (I : isa) (v : list Z) (k : Z), vector (ilanes I) v -> 0 <= k <= 31 ->
    lanes1 (fun a c => pattern c /\ same_mod32 c (a * 2 ^ k)) v (int_slli I v k) /\
    lanes1 (fun a c => c * 2 ^ k <= a < (c + 1) * 2 ^ k) v (int_srli I v k).
Proof. exact C43_shifts_lemma. Qed.
Print Assumptions C43_shifts.

Example C43_shifts_ex :
  vector (ilanes AVX) [1; 4294967295; 0; 7; 2147483648; 5; 6; 4294967290] /\ 0 <= 23 <= 31.
Proof. fitrn. Qed.

(** Larger counts clear the lanes, except on Altivec, where they count modulo 32. *)
Theorem C43_shifts_from_32 : 
  forall (I : isa) (v : list Z) (k : Z), vector (ilanes I) v -> 32 <= k < 128 ->
    (I <> ALTIVEC -> lanes1 (fun _ c => c = 0) v (int_slli I v k) /\ lanes1 (fun _ c => c = 0) v (int_srli I v k)) /\
    (I = ALTIVEC -> int_slli I v k = int_slli I v (k - 32) /\ int_srli I v k = int_srli I v (k - 32)).
Proof. exact C43_shifts_from_32_lemma. Qed.
Print Assumptions C43_shifts_from_32.

Example C43_shifts_from_32_ex :
  vector (ilanes ALTIVEC) [1; 2; 3; 4294967295] /\ 32 <= 33 < 128 /\ ALTIVEC = ALTIVEC.
Proof. fitrn. Qed.

(** int_vec(k) holds k in every lane. *)
Theorem C43_set : 
  forall (I : isa) (k : Z), - 2147483648 <= k < 2147483648 ->
    length (int_set I k) = ilanes I /\ forall z, In z (int_set I k) -> reads z k.
Proof. exact C43_set_lemma. Qed.
Print Assumptions C43_set.

Example C43_set_ex :
  - 2147483648 <= -126 < 2147483648.
Proof. lia. Qed.

(** convert_to_float gives a nearest float (unsigned on Altivec), exact up to 2^24. *)
Theorem C43_convert_to_float : 
  forall (I : isa) (v : list Z), vector (ilanes I) v ->
    lanes1 (fun a y => forall k, (match I with ALTIVEC => k = a | _ => reads a k end) ->
      isfin y = true /\
      (forall z : F F32, isfin z = true -> (Rabs (val y - IZR k) <= Rabs (val z - IZR k))%R) /\
      (Z.abs k <= 16777216 -> is_int y k)) v (int_convert I v).
Proof. exact C43_convert_to_float_lemma. Qed.
Print Assumptions C43_convert_to_float.

Example C43_convert_to_float_ex :
  vector (ilanes SSE) [1; 4294967295; 16777217; 2147483648] /\ reads 4294967295 (-1) /\ Z.abs (-1) <= 16777216.
Proof. fitrn. Qed.

(** truncate_to_int rounds toward zero when the result fits; *)
Theorem C43_truncate_to_int : 
  forall (I : isa) (x : F F32) (k : Z), isfin x = true -> trunc_of (val x) k ->
    (I <> ALTIVEC -> -2147483648 <= k < 2147483648 -> reads (itruncate I x) k) /\
    (I = ALTIVEC -> 0 <= k < 4294967296 -> itruncate I x = k).
Proof. exact C43_truncate_to_int_lemma. Qed.
Print Assumptions C43_truncate_to_int.

Example C43_truncate_to_int_ex :
  let x := f_lit F32 (-7) (-1) in isfin x = true /\ trunc_of (val x) (-3) /\ SSE <> ALTIVEC /\ -2147483648 <= -3 < 2147483648.
Proof. fitrn. rewrite lit_val; [|cbv; congruence..]. unfold trunc_of, floor_of, ceil_of. cbn. split; intros; lra. Qed.

(** on x86 everything else becomes 0x80000000. *)
Theorem C43_truncate_to_int_outside : 
  forall (x : F F32) (I : isa), I = SSE \/ I = AVX ->
    isfin x = false \/ (val x <= - IZR 2147483648 - 1)%R \/ (IZR 2147483648 <= val x)%R ->
    itruncate I x = 2147483648.
Proof. exact C43_truncate_to_int_outside_lemma. Qed.
Print Assumptions C43_truncate_to_int_outside.

Example C43_truncate_to_int_outside_ex :
  let x := of_bits F32 0xff800000 in (SSE = SSE \/ SSE = AVX) /\ (isfin x = false \/ (val x <= - IZR 2147483648 - 1)%R \/ (IZR 2147483648 <= val x)%R).
Proof. split; left; reflexivity. Qed.

(** The two together truncate exactly. *)
Theorem C43_convert_of_truncate : 
  forall (n : nans F32) (I : isa) (x : F F32) (k : Z), I <> ALTIVEC -> isfin x = true -> trunc_of (val x) k ->
    -2147483648 <= k < 2147483648 -> is_int (iconvert I (itruncate I x)) k.
Proof. exact C43_convert_of_truncate_lemma. Qed.
Print Assumptions C43_convert_of_truncate.

Example C43_convert_of_truncate_ex :
  let x := f_lit F32 (-7) (-1) in SSE <> ALTIVEC /\ isfin x = true /\ trunc_of (val x) (-3) /\ -2147483648 <= -3 < 2147483648.
Proof. fitrn. rewrite lit_val; [|cbv; congruence..]. unfold trunc_of, floor_of, ceil_of. cbn. split; intros; lra. Qed.

(** * C44: ldexp_float, frexp_float *)

(** Every normal number, of either sign, is its significand in [1/2,1) times 2 to its
    exponent, exactly. *)
Theorem C44_frexp_splits : 
  forall (I : isa) (x : F F32), I = SSE \/ I = AVX -> isfin x = true -> ~ tiny x ->
    exists s z e, frexp_float I x = (s, z) /\ reads z e /\ isfin s = true /\
      (/ 2 <= Rabs (val s) < 1)%R /\ sgn s = sgn x /\ (val x = val s * bpow radix2 e)%R.
Proof. exact C44_frexp_splits_lemma. Qed.
Print Assumptions C44_frexp_splits.

Example C44_frexp_splits_ex :
  let x := f_ofZ F32 (-100) in (SSE = SSE \/ SSE = AVX) /\ isfin x = true /\ ~ tiny x.
Proof. split; [left; reflexivity|split; [reflexivity|]]. rewrite tiny_mag. vm_compute. congruence. Qed.

(** Multiplication by 2^e, exact whenever the product is a normal number (for every
    int e). *)
Theorem C44_ldexp_scales : 
  forall (I : isa) (x : F F32) (z e : Z), I = SSE \/ I = AVX -> isfin x = true -> ~ tiny x -> reads z e ->
    (bpow radix2 (-126) <= Rabs (val x) * bpow radix2 e < bpow radix2 128)%R ->
    isfin (ldexp_float I x z) = true /\ (val (ldexp_float I x z) = val x * bpow radix2 e)%R /\ sgn (ldexp_float I x z) = sgn x.
Proof. exact C44_ldexp_scales_lemma. Qed.
Print Assumptions C44_ldexp_scales.

Example C44_ldexp_scales_ex :
  let x := f_ofZ F32 (-2) in (SSE = SSE \/ SSE = AVX) /\ isfin x = true /\ ~ tiny x /\ reads 4294967286 (-10) /\ (bpow radix2 (-126) <= Rabs (val x) * bpow radix2 (-10) < bpow radix2 128)%R.
Proof.
  split; [left; reflexivity|split; [reflexivity|split; [rewrite tiny_mag; vm_compute; congruence|split; [fitrn|]]]].
  replace (val (f_ofZ F32 (-2))) with (- bpow radix2 1)%R by (symmetry; exact (proj1 (proj2 (ofZ_exact (t := F32) (-2) ltac:(cbv; congruence))))).
  rewrite Rabs_Ropp, Rabs_pos_eq, <- bpow_plus by (apply bpow_ge_0). split; [apply bpow_le; cbn; lia|apply bpow_lt; cbn; lia].
Qed.

(** Putting the parts together gives back every bit pattern, zeros, subnormals,
    infinities and NaN included. *)
Theorem C44_ldexp_of_frexp : 
  forall (I : isa) (x s : F F32) (z : Z), I = SSE \/ I = AVX -> frexp_float I x = (s, z) ->
    bits (ldexp_float I s z) = bits x.
Proof. exact C44_ldexp_of_frexp_lemma. Qed.
Print Assumptions C44_ldexp_of_frexp.

Example C44_ldexp_of_frexp_ex :
  exists s z, (AVX = SSE \/ AVX = AVX) /\ frexp_float AVX (qnan F32) = (s, z).
Proof. eexists. eexists. split; [right; reflexivity|reflexivity]. Qed.

(** The helpers take no care of 0: scaling it up gives a positive number; *)
Theorem C44_ldexp_of_zero : 
  forall (I : isa) (z e : Z), I = SSE \/ I = AVX -> reads z e -> 1 <= e <= 254 ->
    (val (ldexp_float I (f_ofZ F32 0) z) = bpow radix2 (e - 127))%R.
Proof. exact C44_ldexp_of_zero_lemma. Qed.
Print Assumptions C44_ldexp_of_zero.

Example C44_ldexp_of_zero_ex :
  (SSE = SSE \/ SSE = AVX) /\ reads 10 10 /\ 1 <= 10 <= 254.
Proof. split; [left; reflexivity|]. fitrn. Qed.

(** and its significand is 1/2, its exponent -126. *)
Theorem C44_frexp_of_zero : 
  forall (I : isa), I = SSE \/ I = AVX ->
    exists s z, frexp_float I (f_ofZ F32 0) = (s, z) /\ bits s = bits (f_lit F32 1 (-1)) /\ reads z (-126).
Proof. exact C44_frexp_of_zero_lemma. Qed.
Print Assumptions C44_frexp_of_zero.

Example C44_frexp_of_zero_ex :
  AVX = SSE \/ AVX = AVX.
Proof. right. reflexivity. Qed.
