(** Element access and horizontal operations of vec<F>. *)

From Coq Require Import ZArith List Lia.
From Verif Require Import Base Mem Backend.
Import ListNotations.
Local Open Scope Z_scope.

(** Instruction-set switches the x86 code tests with #ifdef: __SSE2__,
    __SSE3__, __SSE4_1__ and __FMA__ (vec_sse.hpp lines 64, 653, 218, 372 and
    vec_sse2.hpp, vec_avx_float.hpp, vec_avx_double.hpp). *)
Record cfg : Set := { has_sse2 : bool; has_sse3 : bool; has_sse41 : bool; has_fma : bool }.

Section Lanes.
Context {A : Type}.
Local Notation vec := (list A).

(** A lane of a register.  The fault marks a lane number the register does not
    have; it stands for the reads of uninitialised or out-of-bounds data the
    C++ code does for such numbers;
    vec_sse.hpp 296-320 and vec_base.hpp 128-142 (set, get). *)
Definition lane (v : vec) (i : nat) : res A :=
  match nth_error v i with Some x => Ok x | None => Fault Uninitialised end.

(** Replace one lane; writing a lane that does not exist is out of bounds;
    vec_sse.hpp 219-241. *)
Definition set_lane (v : vec) (i : nat) (x : A) : res vec :=
  if (i <? length v)%nat then Ok (firstn i v ++ x :: skipn (S i) v)
  else Fault (OutOfBounds (Z.of_nat i)).

(** _MM_SHUFFLE(z,y,x,w); used in vec_sse.hpp 305-313, 636. *)
Definition mm_shuffle (z y x w : Z) : Z := z * 64 + y * 16 + x * 4 + w.

(** Two-bit field [k] of an immediate; used in vec_sse.hpp 305-313, 636. *)
Definition field (imm : Z) (k : Z) : nat := Z.to_nat ((imm / 4 ^ k) mod 4).

(** _mm_shuffle_ps(a, b, imm); vec_sse.hpp 305-313, 636, 656. *)
Definition shuffle_ps (a b : vec) (imm : Z) : res vec :=
  r0 <- lane a (field imm 0) ;; r1 <- lane a (field imm 1) ;;
  r2 <- lane b (field imm 2) ;; r3 <- lane b (field imm 3) ;;
  Ok [r0; r1; r2; r3].

(** _mm_movehl_ps(a, b): [b2, b3, a2, a3]; vec_sse.hpp 633. *)
Definition movehl_ps (a b : vec) : res vec :=
  r0 <- lane b 2 ;; r1 <- lane b 3 ;; r2 <- lane a 2 ;; r3 <- lane a 3 ;;
  Ok [r0; r1; r2; r3].

(** _mm_shuffle_pd(a, b, imm) with imm = _MM_SHUFFLE2(x, y) = 2x + y:
    [a[y], b[x]]; vec_sse2.hpp 209. *)
Definition shuffle_pd (a b : vec) (imm : Z) : res vec :=
  r0 <- lane a (Z.to_nat (imm mod 2)) ;; r1 <- lane b (Z.to_nat ((imm / 2) mod 2)) ;;
  Ok [r0; r1].

(** _mm_unpackhi_pd(a, b): [a1, b1]; vec_sse2.hpp 432. *)
Definition unpackhi_pd (a b : vec) : res vec :=
  r0 <- lane a 1 ;; r1 <- lane b 1 ;; Ok [r0; r1].

(** _mm_hadd_ps(a, b): [a0+a1, a2+a3, b0+b1, b2+b3]; vec_sse.hpp 654. *)
Definition hadd_ps (add : A -> A -> A) (a b : vec) : res vec :=
  a0 <- lane a 0 ;; a1 <- lane a 1 ;; a2 <- lane a 2 ;; a3 <- lane a 3 ;;
  b0 <- lane b 0 ;; b1 <- lane b 1 ;; b2 <- lane b 2 ;; b3 <- lane b 3 ;;
  Ok [add a0 a1; add a2 a3; add b0 b1; add b2 b3].

(** _mm_OP_ss(a, b) / _mm_OP_sd(a, b): OP on lane 0, the other lanes of a;
    vec_sse.hpp 648, vec_sse2.hpp 444. *)
Definition op_ss (op : A -> A -> A) (a b : vec) : res vec :=
  a0 <- lane a 0 ;; b0 <- lane b 0 ;; Ok (op a0 b0 :: tl a).

(** _mm_insert_ps(a, b, imm): lane imm[7:6] of b goes to lane imm[5:4] of a;
    lanes whose bit is set in imm[3:0] become zero; vec_sse.hpp 226-238. *)
Definition insert_ps (zero : A) (a b : vec) (imm : Z) : res vec :=
  x <- lane b (field imm 3) ;;
  v <- set_lane a (field imm 2) x ;;
  Ok (map2 (fun i y => if Z.testbit imm (Z.of_nat i) then zero else y) (seq 0 4) v).

(** vec::get.  SSE32: vec_sse.hpp 268-319, both forms; SSE64: vec_sse2.hpp
    199-217; NEON32: vec_neon.hpp 229-242; others: vec_base.hpp 128-134. *)
Definition get (c : cfg) (B : backend) (v : vec) (i : nat) : res A :=
  match B with
  | SSE32 =>
      if has_sse41 c then
        match i with  (* _mm_extract_ps; otherwise cu.i is uninitialised *)
        | 0%nat => lane v 0 | 1%nat => lane v 1 | 2%nat => lane v 2 | 3%nat => lane v 3
        | _ => Fault Uninitialised
        end
      else
        ret <- match i with
               | 0%nat => Ok v
               | 1%nat => shuffle_ps v v (mm_shuffle 1 1 1 1)
               | 2%nat => shuffle_ps v v (mm_shuffle 2 2 2 2)
               | 3%nat => shuffle_ps v v (mm_shuffle 3 3 3 3)
               | _ => Fault Uninitialised
               end ;;
        lane ret 0
  | SSE64 =>
      ret <- match i with
             | 0%nat => Ok v
             | 1%nat => shuffle_pd v v (2 * 1 + 1)
             | _ => Fault Uninitialised
             end ;;
      lane ret 0
  | NEON32 =>
      match i with
      | 0%nat => lane v 0 | 1%nat => lane v 1 | 2%nat => lane v 2 | 3%nat => lane v 3
      | _ => Fault Uninitialised
      end
  | _ => lane v i
  end.

(** vec::set.  SSE32 with SSE4.1: vec_sse.hpp 219-241; NEON32: vec_neon.hpp
    185-202; others: vec_base.hpp 136-142.  For an index that does not exist
    the switch statements do nothing (vec_neon.hpp asserts). *)
Definition set (c : cfg) (B : backend) (zero : A) (v : vec) (i : nat) (x : A) : res vec :=
  match B with
  | SSE32 =>
      if has_sse41 c then
        let tmp := [x; zero; zero; zero] in  (* _mm_set_ss *)
        match i with
        | 0%nat => insert_ps zero v tmp (Z.shiftl 0 4)
        | 1%nat => insert_ps zero v tmp (Z.shiftl 1 4)
        | 2%nat => insert_ps zero v tmp (Z.shiftl 2 4)
        | 3%nat => insert_ps zero v tmp (Z.shiftl 3 4)
        | _ => Ok v
        end
      else set_lane v i x
  | NEON32 =>
      match i with
      | 0%nat => set_lane v 0 x | 1%nat => set_lane v 1 x
      | 2%nat => set_lane v 2 x | 3%nat => set_lane v 3 x
      | _ => Ok v
      end
  | _ => set_lane v i x
  end.

(** vec::load_first.  vec_base.hpp 87-94 (generic, NEON), vec_sse.hpp 184-187,
    vec_sse2.hpp 150-153, vec_altivec.hpp 164-168 zero the other lanes;
    vec_avx_float.hpp 148-152 and vec_avx_double.hpp 142-146 cast a 128-bit
    register, whose upper half the intrinsic leaves undefined: [junk] supplies
    those lanes. *)
Definition load_first (B : backend) (zero : A) (junk : nat -> A) (m : mem A) (a : Z) : res vec :=
  x <- load m a ;;
  Ok match B with
     | SSE64 => [x; zero]
     | AVX32 => [x; zero; zero; zero; junk 4%nat; junk 5%nat; junk 6%nat; junk 7%nat]
     | AVX64 => [x; zero; junk 2%nat; junk 3%nat]
     | _ => [x; zero; zero; zero]
     end.

(** *std::max_element over the lanes (vec_base.hpp 338-343), [best] being
    std::max: max_element moves on when `*largest < *it`, as std::max does. *)
Definition fold_lanes (best : A -> A -> A) (v : vec) : res A :=
  match v with
  | [] => Fault Uninitialised
  | x :: r => Ok (fold_left best r x)
  end.

(** HORIZONTAL_OP(PAR_FN, SCAL_FN) of vec_sse.hpp lines 631-638. *)
Definition sse_horizontal (par scal : A -> A -> A) (data : vec) : res A :=
  low <- movehl_ps data data ;;
  let low_accum := map2 par low data in
  elem1 <- shuffle_ps low_accum low_accum (mm_shuffle 1 1 1 1) ;;
  accum <- op_ss scal low_accum elem1 ;;
  lane accum 0.

(** HORIZONTAL_OP(OP) of vec_sse2.hpp lines 430-434. *)
Definition sse2_horizontal (op : A -> A -> A) (data : vec) : res A :=
  high <- unpackhi_pd data data ;;
  accum <- op_ss op data high ;;
  lane accum 0.

(** NEON: vmin_f32 / vmax_f32 of the halves, then std::min / std::max,
    vec_neon.hpp 492-514. *)
Definition neon_horizontal (vop sop : A -> A -> A) (v : vec) : res A :=
  l0 <- lane v 0 ;; l1 <- lane v 1 ;; h0 <- lane v 2 ;; h1 <- lane v 3 ;;
  let p := map2 vop [l0; l1] [h0; h1] in
  p0 <- lane p 0 ;; p1 <- lane p 1 ;; Ok (sop p0 p1).

(** vec::horizontal_max; [smax] is std::max, [vmax] one lane of the vector
    maximum.  vec_base.hpp 338-343, vec_sse.hpp 646-649, vec_sse2.hpp 442-445,
    vec_neon.hpp 504-514. *)
Definition horizontal_max (B : backend) (smax vmax : A -> A -> A) (v : vec) : res A :=
  match B with
  | SSE32 => sse_horizontal vmax vmax v
  | SSE64 => sse2_horizontal vmax v
  | NEON32 => neon_horizontal vmax smax v
  | GEN32 | GEN64 | AVX32 | AVX64 | ALTIVEC32 => fold_lanes smax v
  end.

(** vec::horizontal_min: vec_base.hpp 331-336, vec_sse.hpp 641-644,
    vec_sse2.hpp 437-440, vec_neon.hpp 492-502. *)
Definition horizontal_min (B : backend) (smin vmin : A -> A -> A) (v : vec) : res A :=
  match B with
  | SSE32 => sse_horizontal vmin vmin v
  | SSE64 => sse2_horizontal vmin v
  | NEON32 => neon_horizontal vmin smin v
  | GEN32 | GEN64 | AVX32 | AVX64 | ALTIVEC32 => fold_lanes smin v
  end.

(** vec::horizontal_sum: vec_base.hpp 345-353, vec_sse.hpp 651-663,
    vec_sse2.hpp 447-450, vec_neon.hpp 516-523. *)
Definition horizontal_sum (c : cfg) (B : backend) (zero : A) (add : A -> A -> A) (v : vec) : res A :=
  match B with
  | SSE32 =>
      if has_sse3 c then
        accum1 <- hadd_ps add v v ;;
        elem1 <- shuffle_ps accum1 accum1 (mm_shuffle 1 1 1 1) ;;
        lane (map2 add accum1 elem1) 0
      else sse_horizontal add add v
  | SSE64 => sse2_horizontal add v
  | NEON32 =>
      l0 <- lane v 0 ;; l1 <- lane v 1 ;; h0 <- lane v 2 ;; h1 <- lane v 3 ;;
      let p := [add l0 l1; add h0 h1] in  (* vpadd_f32(low, high) *)
      p0 <- lane p 0 ;; p1 <- lane p 1 ;; Ok (add p0 p1)
  | GEN32 | GEN64 | AVX32 | AVX64 | ALTIVEC32 => Ok (fold_left add v zero)
  end.
End Lanes.
