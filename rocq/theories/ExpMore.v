(** Special arguments of the exponential function. *)
From Coq Require Import ZArith Reals List Lia Lra Bool.
From Flocq Require Import Core IEEE754.Binary IEEE754.Bits.
From Verif Require Import Base Backend Lanes Float LaneOps ScalarMath VecMath IntVec TransMath SpecLane SpecRound SpecInt
  FloatFacts FloatRound LaneFacts VecFacts VecMore VecMore2 RoundFacts RoundMore RoundMore2 IntFacts LdexpFacts TransConst TransFacts
  ErrFacts ErrTac RealMath ExpFacts.
Import ListNotations.
Local Open Scope Z_scope.

Section N.
Context (n : nans F32).
Implicit Types x y : F F32.
Lemma pnan (v : Nan F32) : isnan (proj1_sig v) = true. Proof. destruct v. assumption. Qed.
Lemma fadd_nan x y : isnan x = true \/ isnan y = true -> isnan (fadd n x y) = true.
Proof. intros [H|H]; destruct x, y; try discriminate H; cbn; first [reflexivity | apply pnan]. Qed.
Lemma fsub_nan x y : isnan x = true \/ isnan y = true -> isnan (fsub n x y) = true.
Proof. intros [H|H]; destruct x, y; try discriminate H; cbn; first [reflexivity | apply pnan]. Qed.
Lemma fmul_nan x y : isnan x = true \/ isnan y = true -> isnan (fmul n x y) = true.
Proof. intros [H|H]; destruct x, y; try discriminate H; cbn; first [reflexivity | apply pnan]. Qed.
Lemma fround_even_nan x : isnan x = true -> isnan (fround_even n x) = true.
Proof. intros H. destruct x; try discriminate H. cbn. first [reflexivity | apply pnan]. Qed.
Lemma vround_nan c I x : x86 I -> isnan x = true -> isnan (vround c I n x) = true.
Proof.
  intros [-> | ->] H; unfold vround; [|apply fround_even_nan; exact H]. destruct (has_sse41 c); [apply fround_even_nan; exact H|].
  rewrite vec_round_float_abs. destruct (sgn x); rewrite ?isnan_fneg; apply fsub_nan; left; apply fadd_nan; left; rewrite isnan_fabs; exact H.
Qed.
Lemma ldexp_keep I x : x86 I -> ldexp_float I x (2 ^ 31) = x.
Proof.
  intros HI. assert (E : ldexp_float I x (2 ^ 31) = ldexp_float I x 0) by (destruct HI as [-> | ->]; reflexivity).
  rewrite E. assert (R : reads 0 0) by (apply (reads_u32 0); lia).
  assert (EF : 0 <= efield x < 256).
  { unfold efield. pose proof (mag_range x) as G. change (2 ^ (mw F32 + ew F32))%Z with (2 ^ 31)%Z in G. split; [apply Z.div_pos; lia|apply Z.div_lt_upper_bound; lia]. }
  destruct (ldexp_fields I x 0 0 HI R) as [S M]; [lia|]. apply sm_inj; [exact S|]. rewrite M, mag_fields. lia.
Qed.
Lemma exp_tanh_nan c I x : x86 I -> isnan x = true -> isnan (vec_exp_tanh_float c I n x) = true.
Proof.
  intros HI H. rewrite exp_tanh_form.
  assert (Z : isnan (exp_z c I n x) = true) by (apply vround_nan; [exact HI|apply fmul_nan; right; exact H]).
  assert (K : itruncate I (exp_z c I n x) = 2 ^ 31).
  { rewrite itruncate_x86 by (destruct HI as [-> | ->]; discriminate). destruct (exp_z c I n x); try discriminate Z. reflexivity. }
  rewrite K, ldexp_keep by exact HI. unfold exp_p. apply fadd_nan. right. apply fmul_nan. left. apply fsub_nan. left. apply fsub_nan. left. exact H.
Qed.
End N.

Lemma vrel_nan_lt I (x y : F F32) : x86 I -> isnan x = true \/ isnan y = true -> vrel I LT x y = false.
Proof. intros HI H. rewrite vrel_srel, srel_nan by exact H. destruct HI as [-> | ->]; reflexivity. Qed.
Lemma exp_nan_sse c n x : isnan x = true -> isnan (vec_exp_float c SSE n x) = true.
Proof.
  intros H. rewrite exp_form by (left; reflexivity). rewrite vrel_nan_lt, vrel_nan_gt by (auto; left; reflexivity).
  apply exp_tanh_nan; [left; reflexivity|exact H].
Qed.
Lemma exp_nan_avx c n x : isnan x = true -> vec_exp_float c AVX n x = f_max F32.
Proof.
  intros H. rewrite exp_form by (right; reflexivity). rewrite vrel_nan_lt, vrel_nan_gt by (auto; right; reflexivity). reflexivity.
Qed.
Lemma exp_zero_bits c I n s : x86 I -> bits (vec_exp_float c I n (B754_zero 24 128 s)) = bits (f_ofZ F32 1).
Proof. intros [-> | ->]; [destruct c as [[] ? [] ?]|]; destruct s; vm_compute; reflexivity. Qed.
Lemma exp_edge c I n : x86 I -> isnan (vec_exp_float c I n (litf 8872283905206835 14)) = true.
Proof. intros [-> | ->]; [destruct c as [[] ? [] ?]|]; vm_compute; reflexivity. Qed.
