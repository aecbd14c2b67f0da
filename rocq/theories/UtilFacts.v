(** Facts about simd_utils.hpp and the per-element functions. *)
From Coq Require Import ZArith Reals List Lia Bool Lra.
From Flocq Require Import Core IEEE754.Binary IEEE754.Bits.
From Verif Require Import Base Mem Backend Args Drivers Functors Lanes Float LaneOps FloatOps ScalarMath VecMath IntVec TransMath TransFuns Utils Libm
  Spec SpecReduce SpecLane SpecMath SpecLib FloatFacts LaneFacts VecFacts VecMore DriverFacts DriverClaims DriverClaims2.
Import ListNotations.
Local Open Scope Z_scope.

Section U.
Context (n : nans F32).
Lemma utils_min_form a b c d : utils_horizontal_min n [a; b; c; d] = Ok (vmin SSE n (vmin SSE n a c) (vmin SSE n b c)).
Proof. reflexivity. Qed.
Lemma utils_max_form a b c d : utils_horizontal_max n [a; b; c; d] = Ok (vmax SSE n (vmax SSE n a c) (vmax SSE n b c)).
Proof. reflexivity. Qed.
Lemma rep_is_max (r : F F32) l : no_nan l -> isnan r = false -> (exists x, In x l /\ ord x = ord r) -> (forall x, In x l -> ord x <= ord r) -> is_max r l.
Proof.
  intros Hn Hr (x & Hx & E) Hm. unfold no_nan in Hn. rewrite Forall_forall in Hn. split.
  - intros y Hy. rewrite fle_ord by auto. apply Z.leb_le. auto.
  - exists x. split; [exact Hx|]. rewrite feq_ord by auto. apply Z.eqb_eq. exact E.
Qed.
Lemma rep_is_min (r : F F32) l : no_nan l -> isnan r = false -> (exists x, In x l /\ ord x = ord r) -> (forall x, In x l -> ord r <= ord x) -> is_min r l.
Proof.
  intros Hn Hr (x & Hx & E) Hm. unfold no_nan in Hn. rewrite Forall_forall in Hn. split.
  - intros y Hy. rewrite fle_ord by auto. apply Z.leb_le. auto.
  - exists x. split; [exact Hx|]. rewrite feq_ord by auto. apply Z.eqb_eq. exact E.
Qed.
Lemma no_nan_in (l : list (F F32)) x : no_nan l -> In x l -> rep x (ord x).
Proof. unfold no_nan. rewrite Forall_forall. intros H Hx. split; [apply H; exact Hx|reflexivity]. Qed.
Lemma utils_max_ok a b c d : no_nan [a; b; c] -> exists r, utils_horizontal_max n [a; b; c; d] = Ok r /\ is_max r [a; b; c].
Proof.
  intros H. rewrite utils_max_form. eexists. split; [reflexivity|].
  pose proof (no_nan_in _ a H (or_introl eq_refl)) as Ra. pose proof (no_nan_in _ b H (or_intror (or_introl eq_refl))) as Rb.
  pose proof (no_nan_in _ c H (or_intror (or_intror (or_introl eq_refl)))) as Rc.
  pose proof (vmax_rep SSE n _ _ _ _ (vmax_rep SSE n _ _ _ _ Ra Rc) (vmax_rep SSE n _ _ _ _ Rb Rc)) as [N E].
  apply rep_is_max; [exact H|exact N| |]; rewrite E.
  - destruct (Z.max_spec (ord a) (ord c)) as [[? ->]|[? ->]]; destruct (Z.max_spec (ord b) (ord c)) as [[? ->]|[? ->]];
      [exists c|exists b|exists a|destruct (Z.max_spec (ord a) (ord b)) as [[? ->]|[? ->]]; [exists b|exists a]]; cbn; split; auto; lia.
  - cbn. intros x [<-|[<-|[<-|[]]]]; lia.
Qed.
Lemma utils_min_ok a b c d : no_nan [a; b; c] -> exists r, utils_horizontal_min n [a; b; c; d] = Ok r /\ is_min r [a; b; c].
Proof.
  intros H. rewrite utils_min_form. eexists. split; [reflexivity|].
  pose proof (no_nan_in _ a H (or_introl eq_refl)) as Ra. pose proof (no_nan_in _ b H (or_intror (or_introl eq_refl))) as Rb.
  pose proof (no_nan_in _ c H (or_intror (or_intror (or_introl eq_refl)))) as Rc.
  pose proof (vmin_rep SSE n _ _ _ _ (vmin_rep SSE n _ _ _ _ Ra Rc) (vmin_rep SSE n _ _ _ _ Rb Rc)) as [N E].
  apply rep_is_min; [exact H|exact N| |]; rewrite E.
  - destruct (Z.min_spec (ord a) (ord c)) as [[? ->]|[? ->]]; destruct (Z.min_spec (ord b) (ord c)) as [[? ->]|[? ->]];
      [destruct (Z.min_spec (ord a) (ord b)) as [[? ->]|[? ->]]; [exists a|exists b]|exists a|exists b|exists c]; cbn; split; auto; lia.
  - cbn. intros x [<-|[<-|[<-|[]]]]; lia.
Qed.
End U.

Lemma utils_constants c : bits (utils_sign_mask c) = 2 ^ 31 /\ bits (utils_abs_mask c) = 2 ^ 31 - 1 /\
  utils_one c = f_ofZ F32 1 /\ utils_05 c = f_lit F32 1 (-1) /\ utils_025 = f_lit F32 1 (-2).
Proof.
  destruct c as [[] [] [] []]; repeat apply conj; try reflexivity; try (apply bits_inj; reflexivity).
Qed.
Lemma select_vector_mask c (v0 v1 : F F32) b : select_vector c v0 v1 (mask b) = if b then v1 else v0.
Proof.
  unfold select_vector. destruct (has_sse41 c).
  - destruct b; reflexivity.
  - rewrite band_mask_r. unfold andnot. 
    destruct b.
    + replace (band (bnot (mask true)) v0) with (f_ofZ F32 0).
      * apply bor_zero_l.
      * replace (bnot (mask true)) with (mask (t := F32) false) by (apply bits_inj; reflexivity). rewrite band_mask_l. reflexivity.
    + replace (bnot (mask false)) with (mask (t := F32) true) by (apply bits_inj; reflexivity). rewrite band_mask_l. apply bor_zero_r.
Qed.

(** * Per-element loops *)
Section L.
Context {A : Type}.
Lemma set_lane_split (pre : list A) x y post : set_lane (pre ++ x :: post) (length pre) y = Ok (pre ++ y :: post).
Proof.
  unfold set_lane. rewrite app_length. cbn [length]. destruct (Nat.ltb_spec (length pre) (length pre + S (length post))); [|lia].
  rewrite firstn_app, firstn_all, Nat.sub_diag. cbn [firstn]. rewrite app_nil_r. f_equal. f_equal. f_equal.
  rewrite skipn_app. rewrite skipn_all2 by lia. replace (S (length pre) - length pre)%nat with 1%nat by lia. reflexivity.
Qed.
Lemma lane_split (pre : list A) x post : lane (pre ++ x :: post) (length pre) = Ok x.
Proof. unfold lane. rewrite nth_error_app2 by lia. rewrite Nat.sub_diag. reflexivity. Qed.
Lemma apply_unary_loop_ok (f : A -> A) : forall post pre, apply_unary_loop f (length post) (length pre) (pre ++ post) = Ok (pre ++ map f post).
Proof.
  induction post as [|x post IH]; intros pre; [cbn; rewrite !app_nil_r; reflexivity|].
  cbn [length apply_unary_loop]. rewrite lane_split. cbn [bind]. rewrite set_lane_split. cbn [bind].
  specialize (IH (pre ++ [f x])). rewrite app_length, <- !app_assoc in IH. cbn [length app] in IH. rewrite Nat.add_1_r in IH. exact IH.
Qed.
Lemma apply_unary_ok B (f : A -> A) v : length v = vsize B -> apply_unary B f v = Ok (map f v).
Proof. intros H. unfold apply_unary. rewrite <- H. exact (apply_unary_loop_ok f v []). Qed.
Lemma apply_binary_loop_ok (f : A -> A -> A) : forall p1 p2 junk q1 q2 pre, length p1 = length p2 -> length p1 = length junk ->
  length q1 = length pre -> length q2 = length pre ->
  apply_binary_loop f (length p1) (length pre) (q1 ++ p1) (q2 ++ p2) (pre ++ junk) = Ok (pre ++ map2 f p1 p2).
Proof.
  induction p1 as [|x p1 IH]; intros [|y p2] [|j junk] q1 q2 pre H1 H2 H3 H4; cbn in H1, H2; try discriminate.
  - cbn. reflexivity.
  - cbn [length apply_binary_loop]. rewrite <- H3 at 1. rewrite lane_split. cbn [bind]. rewrite <- H4 at 1. rewrite lane_split. cbn [bind].
    rewrite set_lane_split. cbn [bind]. specialize (IH p2 junk (q1 ++ [x]) (q2 ++ [y]) (pre ++ [f x y])).
    rewrite !app_length, <- !app_assoc in IH. cbn [length app] in IH. rewrite !Nat.add_1_r in IH. apply IH; lia.
Qed.
Lemma apply_binary_ok B (f : A -> A -> A) ret u v : length ret = vsize B -> length u = vsize B -> length v = vsize B ->
  apply_binary B f ret u v = Ok (map2 f u v).
Proof. intros Hr Hu Hv. unfold apply_binary. rewrite <- Hu. apply (apply_binary_loop_ok f u v ret [] [] []); cbn; congruence. Qed.
Lemma collect_loop_ok (f : A -> A) : forall p junk q pre, length p = length junk -> length q = length pre ->
  collect_loop f (length p) (length pre) (q ++ p) (pre ++ junk) = Ok (pre ++ map f p).
Proof.
  induction p as [|x p IH]; intros [|j junk] q pre H1 H2; cbn in H1; try discriminate; [reflexivity|].
  cbn [length collect_loop]. rewrite <- H2 at 1. rewrite lane_split. cbn [bind]. rewrite set_lane_split. cbn [bind].
  specialize (IH junk (q ++ [x]) (pre ++ [f x])). rewrite !app_length, <- !app_assoc in IH. cbn [length app] in IH. rewrite !Nat.add_1_r in IH. apply IH; lia.
Qed.
Lemma collect_ok B (f : A -> A) ret v : length ret = vsize B -> length v = vsize B -> collect B f ret v = Ok (map f v).
Proof. intros Hr Hv. unfold collect. rewrite <- Hv. apply (collect_loop_ok f v ret [] []); cbn; congruence. Qed.
End L.

(** * Delegation *)
Lemma v_ufun_scalar c B w k f : (B = AVX32 -> False) -> (B = SSE32 -> has_sse2 c = false) -> v_ufun c B w k f = s_ufun w f.
Proof. intros H1 H2. destruct B; try reflexivity; [|exfalso; auto]. cbn. rewrite H2 by reflexivity. reflexivity. Qed.
Lemma v_bfun_scalar c B w f : (B = AVX32 -> False) -> (B = SSE32 -> has_sse2 c = false) -> v_bfun c B w f = s_bfun w f.
Proof. intros H1 H2. destruct B; try reflexivity; [|exfalso; auto]. cbn. rewrite H2 by reflexivity. reflexivity. Qed.
Lemma v_unit_scalar c B w k u x : (B = AVX32 -> False) -> (B = SSE32 -> has_sse2 c = false) -> B <> ALTIVEC32 ->
  v_unit c B w k u x = s_unit w u x.
Proof.
  intros H1 H2 H3. unfold v_unit, s_unit. rewrite !v_ufun_scalar, !v_bfun_scalar by assumption.
  assert (M : forall a b, vmul (isa_of B) (w_nan w) a b = fmul (w_nan w) a b) by (intros; apply vmul_x86; destruct B; discriminate || congruence).
  destruct u; cbn [u_fun]; unfold u_abs_log2; rewrite ?M, ?vabs_fabs; reflexivity.
Qed.
Lemma delegates_not c B : delegates c B -> (B = AVX32 -> False) /\ (B = SSE32 -> has_sse2 c = false).
Proof.
  intros H. split; [intros ->; apply H; left; reflexivity|]. intros ->. destruct (has_sse2 c) eqn:E; [|reflexivity]. exfalso. apply H. right. split; [reflexivity|exact E].
Qed.

(** * signed_pow of scalars *)
Section Spow.
Context {t : fmt} (w : world t).
Lemma fgt_lt (x y : F t) : fgt x y = flt y x. Proof. apply fgt_swap. Qed.
Lemma sgn_lt0 (x : F t) : flt x (f_ofZ t 0) = true -> sgn x = true.
Proof. destruct t; destruct x as [s|s|s pl H|s m e H]; destruct s; vm_compute; congruence. Qed.
Lemma sgn_gt0 (x : F t) : flt (f_ofZ t 0) x = true -> sgn x = false.
Proof. destruct t; destruct x as [s|s|s pl H|s m e H]; destruct s; vm_compute; congruence. Qed.
Lemma not_gt (x : F t) : sgn x = true -> flt (f_ofZ t 0) x = false.
Proof. destruct t; destruct x as [s|s|s pl H|s m e H]; destruct s; vm_compute; congruence. Qed.
Lemma is_gt (x : F t) : number x -> feq x (f_ofZ t 0) = false -> sgn x = false -> flt (f_ofZ t 0) x = true.
Proof. unfold number. destruct t; destruct x as [s|s|s pl H|s m e H]; destruct s; vm_compute; congruence. Qed.
Lemma fneg_fneg (x : F t) : fneg (fneg x) = x.
Proof. destruct x as [s|s|s pl H|s m e H]; destruct s; reflexivity. Qed.
Lemma fabs_pos (x : F t) : sgn x = false -> fabs x = x.
Proof. destruct x as [s|s|s pl H|s m e H]; cbn; intros ->; reflexivity. Qed.
Lemma fabs_neg (x : F t) : sgn x = true -> fabs x = fneg x.
Proof. destruct x as [s|s|s pl H|s m e H]; cbn; intros ->; reflexivity. Qed.
Lemma spow_form x y : number x ->
  (fgt x (f_ofZ t 0) = true -> s_signed_pow w x y = m_pow (w_lib w) (fabs x) y) /\
  (flt x (f_ofZ t 0) = true -> s_signed_pow w x y = fneg (m_pow (w_lib w) (fabs x) y)).
Proof.
  intros N. unfold s_signed_pow. rewrite fgt_lt. split; intros H.
  - rewrite H, fabs_pos by (apply sgn_gt0; exact H). reflexivity.
  - pose proof (sgn_lt0 x H) as S. rewrite not_gt, fabs_neg by exact S. reflexivity.
Qed.
Lemma spow_odd x y : number x -> feq x (f_ofZ t 0) = false -> s_signed_pow w (fneg x) y = fneg (s_signed_pow w x y).
Proof.
  intros N Z. unfold s_signed_pow. rewrite !fgt_lt. destruct (sgn x) eqn:S.
  - rewrite (not_gt x S). rewrite is_gt; [rewrite fneg_fneg; reflexivity| | |rewrite sgn_fneg, S; reflexivity].
    + unfold number. rewrite isnan_fneg. exact N.
    + revert Z. destruct t; destruct x as [s|s|s pl H|s m e H]; destruct s; vm_compute; congruence.
  - rewrite (is_gt x N Z S). rewrite not_gt by (rewrite sgn_fneg, S; reflexivity). rewrite fneg_fneg. reflexivity.
Qed.
Lemma spow_zero : (forall s, m_pow (w_lib w) (B754_zero (prec t) (emax t) s) (f_ofZ t 0) = f_ofZ t 1) ->
  s_signed_pow w (B754_zero (prec t) (emax t) false) (f_ofZ t 0) = fneg (f_ofZ t 1) /\
  s_signed_pow w (fneg (B754_zero (prec t) (emax t) false)) (f_ofZ t 0) = fneg (f_ofZ t 1).
Proof.
  intros H. unfold s_signed_pow. rewrite !fgt_lt. assert (Z : forall s, flt (f_ofZ t 0) (B754_zero (prec t) (emax t) s) = false) by (intros s; destruct t, s; reflexivity).
  cbn [fneg negb]. rewrite !Z, !H. split; reflexivity.
Qed.
End Spow.
