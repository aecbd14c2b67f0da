(** Trigonometric functions: particular arguments, and corollaries. *)
From Coq Require Import ZArith Reals Ratan List Lia Lra Bool.
From Flocq Require Import Core IEEE754.Binary IEEE754.Bits.
From Verif Require Import RealTrig Base Backend Lanes Float LaneOps TransMath FloatFacts FloatRound LaneFacts VecFacts VecMore NearFacts TransFacts SinFacts MathMore ExMath.
Local Open Scope R_scope.

Lemma eta_146 : 5 * eta <= bpow radix2 (-146).
Proof. change (-146)%Z with (3 + -149)%Z. rewrite bpow_plus. fold eta. change (bpow radix2 3) with 8. pose proof (bpow_gt_0 radix2 (-149)) as P. fold eta in P. lra. Qed.
Lemma eta_145 : 12 * eta <= bpow radix2 (-145).
Proof. change (-145)%Z with (4 + -149)%Z. rewrite bpow_plus. fold eta. change (bpow radix2 4) with 16. pose proof (bpow_gt_0 radix2 (-149)) as P. fold eta in P. lra. Qed.
Section S.
Context (c : cfg) (I : isa) (n : nans F32) (HI : x86 I).
Lemma sin_2_30 : bits (vec_sin_float c I n (f_lit F32 1 30)) = bits (f_lit F32 (-8475027) (-3)).
Proof. destruct HI as [-> | ->]; [destruct c as [[] ? [] ?]|]; vm_compute; reflexivity. Qed.
Lemma cos_2_30 : bits (vec_cos_float c I n (f_lit F32 1 30)) = bits (f_lit F32 12879914 (-2)).
Proof. destruct HI as [-> | ->]; [destruct c as [[] ? [] ?]|]; vm_compute; reflexivity. Qed.
Lemma acos_m05 : bits (vec_acos_float c I n (f_lit F32 (-1) (-1))) = bits (f_lit F32 8784530 (-21)).
Proof. destruct HI as [-> | ->]; [destruct c as [[] ? [] ?]|]; vm_compute; reflexivity. Qed.
Lemma atan_inf (s : bool) : bits (vec_atan_float c I n (B754_infinity 24 128 s)) = bits (f_lit F32 (if s then -13176795 else 13176795) (-23)).
Proof. destruct s; (destruct HI as [-> | ->]; [destruct c as [[] ? [] ?]|]); vm_compute; reflexivity. Qed.
Lemma sin_zero (s : bool) : bits (vec_sin_float c I n (B754_zero 24 128 s)) = bits (B754_zero 24 128 s : F F32).
Proof. destruct s; (destruct HI as [-> | ->]; [destruct c as [[] ? [] ?]|]); vm_compute; reflexivity. Qed.
Lemma tan_zero (s : bool) : bits (vec_tan_float c I n (B754_zero 24 128 s)) = bits (B754_zero 24 128 s : F F32).
Proof. destruct s; (destruct HI as [-> | ->]; [destruct c as [[] ? [] ?]|]); vm_compute; reflexivity. Qed.
Lemma asin_zero (s : bool) : bits (vec_asin_float c I n (B754_zero 24 128 s)) = bits (B754_zero 24 128 s : F F32).
Proof. destruct s; (destruct HI as [-> | ->]; [destruct c as [[] ? [] ?]|]); vm_compute; reflexivity. Qed.
Lemma atan_zero (s : bool) : bits (vec_atan_float c I n (B754_zero 24 128 s)) = bits (B754_zero 24 128 s : F F32).
Proof. destruct s; (destruct HI as [-> | ->]; [destruct c as [[] ? [] ?]|]); vm_compute; reflexivity. Qed.
Lemma cos_zero (s : bool) : bits (vec_cos_float c I n (B754_zero 24 128 s)) = bits (f_ofZ F32 1).
Proof. destruct s; (destruct HI as [-> | ->]; [destruct c as [[] ? [] ?]|]); vm_compute; reflexivity. Qed.
Lemma acos_one : bits (vec_acos_float c I n (f_ofZ F32 1)) = bits (f_ofZ F32 0).
Proof. destruct HI as [-> | ->]; [destruct c as [[] ? [] ?]|]; vm_compute; reflexivity. Qed.

Lemma sin_far : val (vec_sin_float c I n (f_lit F32 1 30)) < - 1000000.
Proof.
  rewrite (bits_inj _ _ sin_2_30). destruct (lit_range32 (-8475027) (-3)) as [_ V]; [lia|lia|]. rewrite V. change (bpow radix2 (-3)) with (/ 8). lra.
Qed.
Lemma cos_far : val (vec_cos_float c I n (f_lit F32 1 30)) > 1000000.
Proof.
  rewrite (bits_inj _ _ cos_2_30). destruct (lit_range32 12879914 (-2)) as [_ V]; [lia|lia|]. rewrite V. change (bpow radix2 (-2)) with (/ 4). lra.
Qed.
Lemma acos_m05_val : val (vec_acos_float c I n (f_lit F32 (-1) (-1))) > 4.
Proof.
  rewrite (bits_inj _ _ acos_m05). destruct (lit_range32 8784530 (-21)) as [_ V]; [lia|lia|]. rewrite V. change (bpow radix2 (-21)) with (/ 2097152). lra.
Qed.
Lemma atan_inf_val (s : bool) : isfin (vec_atan_float c I n (B754_infinity 24 128 s)) = true /\
  Rabs (val (vec_atan_float c I n (B754_infinity 24 128 s)) - (if s then - (PI / 2) else PI / 2)) <= 1e-7.
Proof.
  rewrite (bits_inj _ _ (atan_inf s)). pose proof pi_range as P. destruct s.
  - destruct (lit_range32 (-13176795) (-23)) as [A V]; [lia|lia|]. split; [exact A|]. rewrite V. change (bpow radix2 (-23)) with (/ 8388608). apply Rabs_le. lra.
  - destruct (lit_range32 13176795 (-23)) as [A V]; [lia|lia|]. split; [exact A|]. rewrite V. change (bpow radix2 (-23)) with (/ 8388608). apply Rabs_le. lra.
Qed.
(** The point (cos x, sin x) is near the unit circle. *)
Lemma square_err u v d : Rabs v <= 1 -> Rabs (u - v) <= 27e-8 * Rabs v + d -> 0 <= d <= 1e-9 -> Rabs (u * u - v * v) <= 55e-8 * (v * v) + 3 * d.
Proof.
  intros V H D. replace (u * u - v * v) with ((u - v) * (u - v + 2 * v)) by ring. rewrite Rabs_mult.
  assert (A : Rabs (u - v + 2 * v) <= (27e-8 * Rabs v + d) + 2 * Rabs v).
  { eapply Rle_trans; [apply Rabs_triang|]. rewrite (Rabs_mult 2), (Rabs_pos_eq 2) by lra. lra. }
  assert (E : v * v = Rabs v * Rabs v) by (rewrite <- Rabs_mult; symmetry; apply Rabs_pos_eq; nra). rewrite E. pose proof (Rabs_pos v). pose proof (Rabs_pos (u - v)).
  set (w := Rabs v) in *. apply Rle_trans with ((27e-8 * w + d) * ((27e-8 * w + d) + 2 * w)); [apply Rmult_le_compat; try assumption; apply Rabs_pos|]. nra.
Qed.
Lemma unit_circle x : isfin x = true -> Rabs (val x) <= 8192 ->
  Rabs (val (vec_sin_float c I n x) * val (vec_sin_float c I n x) + val (vec_cos_float c I n x) * val (vec_cos_float c I n x) - 1) <= 6e-7.
Proof.
  intros Fx Bx. destruct (sin_accurate c I n HI x Fx Bx) as [_ ES]. destruct (cos_accurate c I n HI x Fx Bx) as [_ EC].
  assert (TT : 0 < tail148 <= 1e-12). { split; [apply bpow_gt_0|]. unfold tail148. apply Rle_trans with (bpow radix2 (-40)); [apply bpow_le; lia|]. change (bpow radix2 (-40)) with (/ 1099511627776). lra. }
  pose proof (Rabs_pos (val x)) as PX. pose proof (SIN_bound (val x)) as SB. pose proof (COS_bound (val x)) as CB. pose proof (sin2_cos2 (val x)) as U. unfold Rsqr in U.
  assert (QS := square_err _ (sin (val x)) 1e-10 ltac:(apply Rabs_le; lra) ltac:(eapply Rle_trans; [exact ES|lra]) ltac:(lra)).
  assert (QC := square_err _ (cos (val x)) 1e-10 ltac:(apply Rabs_le; lra) ltac:(eapply Rle_trans; [exact EC|lra]) ltac:(lra)).
  set (s := val (vec_sin_float c I n x)) in *. set (k := val (vec_cos_float c I n x)) in *. set (a := sin (val x) * sin (val x)) in *. set (b := cos (val x) * cos (val x)) in *.
  apply Rabs_le_inv in QS. apply Rabs_le_inv in QC. apply Rabs_le. lra.
Qed.
End S.
