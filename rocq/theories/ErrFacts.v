(** Ranges and rounding errors of float expressions: a checker that computes
    them with integers, and its correctness. *)
From Coq Require Import ZArith Reals List Lia Lra Bool Psatz.
From Flocq Require Import Core IEEE754.Binary IEEE754.Bits.
From Flocq Require Import Relative.
From Verif Require Import Float FloatFacts FloatRound.
Import ListNotations.
Local Open Scope R_scope.

Lemma rnd_err k r : (-125 <= k)%Z -> Rabs r <= bpow radix2 k -> Rabs (rnd F32 r - r) <= bpow radix2 (k - 25).
Proof.
  intros Hk Hr. pose proof (bpow_gt_0 radix2 (k - 25)) as Hp.
  assert (Fk : fmtR F32 (bpow radix2 k)) by (apply bpow_format; change (emin F32) with (-149)%Z; lia).
  destruct (Req_dec r 0) as [-> | Hr0]; [rewrite rnd_0, Rminus_0_r, Rabs_R0; lra|].
  destruct (Req_dec (Rabs r) (bpow radix2 k)) as [E|E].
  { assert (fmtR F32 r). { unfold Rabs in E. destruct (Rcase_abs r); [|rewrite E; exact Fk].
      replace r with (- bpow radix2 k) by lra. apply generic_format_opp. exact Fk. }
    rewrite rnd_id by assumption. rewrite Rminus_diag_eq, Rabs_R0 by reflexivity. lra. }
  eapply Rle_trans; [apply error_le_half_ulp; apply (fexp_correct (prec F32) (emax F32)); apply Hprec|].
  rewrite ulp_neq_0 by exact Hr0. replace (k - 25)%Z with (-1 + (k - 24))%Z by lia. rewrite bpow_plus.
  change (bpow radix2 (-1)) with (/ 2). apply Rmult_le_compat_l; [lra|]. apply bpow_le. unfold cexp.
  change (SpecFloat.fexp (prec F32) (emax F32)) with (FLT_exp (-149) 24). unfold FLT_exp.
  assert (Raux.mag radix2 r <= k)%Z; [|lia]. apply mag_le_bpow; [exact Hr0|lra].
Qed.
Lemma rnd_le_bpow k r : (-149 <= k)%Z -> Rabs r <= bpow radix2 k -> Rabs (rnd F32 r) <= bpow radix2 k.
Proof. intros Hk Hr. apply rnd_abs_le; [|exact Hr]. apply bpow_format. change (emin F32) with (-149)%Z. lia. Qed.
(** Relative error of one rounding. *)
Lemma rnd_rel r : Rabs (rnd F32 r - r) <= bpow radix2 (-24) * Rabs r + bpow radix2 (-150).
Proof.
  destruct (Rle_lt_dec (bpow radix2 (-126)) (Rabs r)) as [H|H].
  - pose proof (relative_error_N_FLT radix2 (-149) 24 ltac:(reflexivity) (fun x => negb (Z.even x)) r H) as E.
    change (/ 2 * bpow radix2 (- (24) + 1)) with (/ 2 * bpow radix2 (-23)) in E.
    replace (bpow radix2 (-24)) with (/ 2 * bpow radix2 (-23)).
    2:{ replace (-24)%Z with (-1 + -23)%Z by lia. rewrite bpow_plus. reflexivity. }
    pose proof (bpow_gt_0 radix2 (-150)). unfold rnd. change (SpecFloat.fexp (prec F32) (emax F32)) with (FLT_exp (-149) 24).
    eapply Rle_trans; [exact E|lra].
  - pose proof (rnd_err (-125) r ltac:(lia)) as E. 
    assert (bpow radix2 (-126) <= bpow radix2 (-125)) by (apply bpow_le; lia).
    change (-125 - 25)%Z with (-150)%Z in E. specialize (E ltac:(lra)). pose proof (Rabs_pos r). pose proof (bpow_gt_0 radix2 (-24)). nra.
Qed.

(** * Fixed-point numbers *)
Definition sc : Z := 80.
(** Proof auxiliary: the fixed-point number z / 2^sc. *)
Definition dy (z : Z) : R := IZR z * bpow radix2 (- sc).
Lemma dy_pos : 0 < bpow radix2 (- sc). Proof. apply bpow_gt_0. Qed.
Lemma dy_le a b : (a <= b)%Z -> dy a <= dy b.
Proof. intros H. unfold dy. apply Rmult_le_compat_r; [apply bpow_ge_0|apply IZR_le; exact H]. Qed.
Lemma dy_add a b : dy (a + b) = dy a + dy b. Proof. unfold dy. rewrite plus_IZR. ring. Qed.
Lemma dy_sub a b : dy (a - b) = dy a - dy b. Proof. unfold dy. rewrite minus_IZR. ring. Qed.
Lemma dy_opp a : dy (- a) = - dy a. Proof. unfold dy. rewrite opp_IZR. ring. Qed.
Lemma dy_0 : dy 0 = 0. Proof. unfold dy. ring. Qed.
Lemma dy_bpow k : (- sc <= k)%Z -> dy (2 ^ (k + sc)) = bpow radix2 k.
Proof. intros H. unfold dy. change 2%Z with (radix_val radix2). rewrite IZR_Zpower by lia. rewrite <- bpow_plus. f_equal. lia. Qed.
(** Proof auxiliary: division by 2^sc rounded down. *)
Definition dn (z : Z) : Z := (z / 2 ^ sc)%Z.
(** Proof auxiliary: division by 2^sc rounded up. *)
Definition up (z : Z) : Z := (- (- z / 2 ^ sc))%Z.
Lemma bsc : bpow radix2 sc * bpow radix2 (- sc) = 1.
Proof. rewrite <- bpow_plus. reflexivity. Qed.
Lemma dyz z : dy (2 ^ sc * z) = IZR z.
Proof. unfold dy. rewrite mult_IZR. change (IZR (2 ^ sc)) with (bpow radix2 sc).
  transitivity (IZR z * (bpow radix2 sc * bpow radix2 (- sc))); [ring|rewrite bsc; ring].
Qed.
Lemma dn_le a b : dy (dn (a * b)) <= dy a * dy b.
Proof.
  replace (dy a * dy b) with (dy (a * b) * bpow radix2 (- sc)) by (unfold dy; rewrite mult_IZR; ring).
  unfold dn. pose proof (Z.mul_div_le (a * b) (2 ^ sc) ltac:(reflexivity)) as H. apply dy_le in H. rewrite dyz in H.
  unfold dy at 1. apply Rmult_le_compat_r; [apply bpow_ge_0|exact H].
Qed.
Lemma up_ge a b : dy a * dy b <= dy (up (a * b)).
Proof.
  unfold up. replace (- (a * b))%Z with ((- a) * b)%Z by ring. rewrite dy_opp. pose proof (dn_le (- a) b) as H.
  unfold dn in H. rewrite dy_opp in H. lra.
Qed.
(** Proof auxiliary: absolute value. *)
Definition zab (z : Z) := Z.abs z.
Lemma dy_abs z : dy (Z.abs z) = Rabs (dy z).
Proof. unfold dy. rewrite abs_IZR, Rabs_mult, (Rabs_pos_eq (bpow radix2 (- sc))) by apply bpow_ge_0. reflexivity. Qed.
(** Quotient of fixed-point numbers, rounded up. *)
Definition dup (a b : Z) : Z := (- (- (a * 2 ^ sc) / b))%Z.
Lemma dup_ge a b : (0 < b)%Z -> dy a / dy b <= dy (dup a b).
Proof.
  intros Hb. assert (B : 0 < dy b) by (unfold dy; apply Rmult_lt_0_compat; [apply IZR_lt; exact Hb|apply bpow_gt_0]).
  apply (Rmult_le_reg_r (dy b)); [exact B|]. unfold Rdiv. rewrite Rmult_assoc, Rinv_l, Rmult_1_r by lra.
  unfold dup. pose proof (Z.mul_div_le (- (a * 2 ^ sc)) b Hb) as H. rewrite dy_opp.
  set (q := (- (a * 2 ^ sc) / b)%Z) in *.
  assert (H' : (2 ^ sc * a <= - q * b)%Z) by lia. apply dy_le in H'. rewrite dyz in H'.
  unfold dy at 1. replace (dy (- q * b)) with (IZR (- q) * dy b) in H' by (unfold dy; rewrite mult_IZR; ring).
  replace (- dy q * dy b) with ((IZR (- q) * dy b) * bpow radix2 (- sc)) by (unfold dy; rewrite opp_IZR; ring).
  apply Rmult_le_compat_r; [apply bpow_ge_0|exact H'].
Qed.

(** * Expressions *)
Inductive ex : Type :=
| Var (i : nat)
| Cst (x : F F32)
| Neg (a : ex)
| Add (a b : ex)
| Sub (a b : ex)
| Mul (a b : ex)
| Div (a b : ex).

Section E.
Context (n : nans F32).
(** The float computation and the same formula on real numbers. *)
Fixpoint fev (fe : list (F F32)) (e : ex) : F F32 :=
  match e with
  | Var i => nth i fe (f_ofZ F32 0)
  | Cst x => x
  | Neg a => fneg (fev fe a)
  | Add a b => fadd n (fev fe a) (fev fe b)
  | Sub a b => fsub n (fev fe a) (fev fe b)
  | Mul a b => fmul n (fev fe a) (fev fe b)
  | Div a b => fdiv n (fev fe a) (fev fe b)
  end.
(** Proof auxiliary: the real value of an expression. *)
Fixpoint rev (re : list R) (e : ex) : R :=
  match e with
  | Var i => nth i re 0
  | Cst x => val x
  | Neg a => - rev re a
  | Add a b => rev re a + rev re b
  | Sub a b => rev re a - rev re b
  | Mul a b => rev re a * rev re b
  | Div a b => rev re a / rev re b
  end.

(** Lower bound, upper bound, error; in units of 2^-80. *)
Definition bound : Set := (Z * Z * Z)%type.
(** Proof auxiliary: float [f] approximates real [r] within bound [b]. *)
Definition holds (f : F F32) (r : R) (b : bound) : Prop :=
  let '(lo, hi, er) := b in isfin f = true /\ dy lo <= r <= dy hi /\ Rabs (val f - r) <= dy er.

(** Proof auxiliary: largest magnitude in an interval. *)
Definition mx (lo hi : Z) : Z := Z.max (Z.abs lo) (Z.abs hi).
Lemma mx_ok lo hi r : dy lo <= r <= dy hi -> Rabs r <= dy (mx lo hi).
Proof.
  intros H. assert (A : dy lo <= dy (mx lo hi)) by (apply dy_le; unfold mx; lia).
  assert (B : dy hi <= dy (mx lo hi)) by (apply dy_le; unfold mx; lia).
  assert (C : dy (- mx lo hi) <= dy lo) by (apply dy_le; unfold mx; lia). rewrite dy_opp in C.
  apply Rabs_le. lra.
Qed.
(** Exponent of a power of two above the magnitude, and the rounding error. *)
Definition ek (M : Z) : Z := Z.max (-55) (Z.log2_up M - sc).
(** Proof auxiliary: half an ulp at magnitude M, in fixed point. *)
Definition re_ (M : Z) : Z := (2 ^ (ek M - 25 + sc))%Z.
Lemma ek_ok M : (0 <= M)%Z -> dy M <= bpow radix2 (ek M).
Proof.
  intros H. rewrite <- dy_bpow by (unfold ek, sc; lia). apply dy_le.
  destruct (Z.eq_dec M 0) as [-> | Hn]; [apply Z.pow_nonneg; lia|].
  destruct (Z.eq_dec M 1) as [-> | Hn1].
  { assert (0 < 2 ^ (ek 1 + sc))%Z by (apply Z.pow_pos_nonneg; unfold ek, sc; lia). lia. }
  pose proof (Z.log2_up_spec M ltac:(lia)) as [_ H1]. eapply Z.le_trans; [exact H1|]. apply Z.pow_le_mono_r; unfold ek; lia.
Qed.
Lemma rnd_M M r : (0 <= M)%Z -> (ek M <= 127)%Z -> Rabs r <= dy M ->
  Rabs (rnd F32 r) < bpow radix2 (emax F32) /\ Rabs (rnd F32 r - r) <= dy (re_ M).
Proof.
  intros HM Hk Hr. pose proof (ek_ok M HM) as E. assert (L : (-55 <= ek M)%Z) by (unfold ek; lia). split.
  - eapply Rle_lt_trans; [apply (rnd_le_bpow (ek M)); [lia|lra]|]. apply bpow_lt. change (emax F32) with 128%Z. lia.
  - unfold re_. rewrite dy_bpow by (unfold sc; lia). apply rnd_err; [lia|lra].
Qed.

(** Proof auxiliary: least of four. *)
Definition min4 a b c d := Z.min (Z.min a b) (Z.min c d).
(** Proof auxiliary: greatest of four. *)
Definition max4 a b c d := Z.max (Z.max a b) (Z.max c d).

(** Proof auxiliary: error bound of an expression, computed in integers. *)
Fixpoint bnd (be : list bound) (e : ex) : option bound :=
  match e with
  | Var i => nth_error be i
  | Cst x =>
      match x with
      | B754_zero _ _ _ => Some (0, 0, 0)%Z
      | B754_finite _ _ s m e _ =>
          if (- sc <=? e)%Z then let v := (cond_Zopp s (Z.pos m) * 2 ^ (e + sc))%Z in Some (v, v, 0%Z) else None
      | _ => None
      end
  | Neg a => match bnd be a with Some (lo, hi, er) => Some (- hi, - lo, er)%Z | None => None end
  | Add a b =>
      match bnd be a, bnd be b with
      | Some (l1, h1, e1), Some (l2, h2, e2) =>
          let M := (mx (l1 + l2) (h1 + h2) + e1 + e2)%Z in
          if (ek M <=? 127)%Z then Some (l1 + l2, h1 + h2, e1 + e2 + re_ M)%Z else None
      | _, _ => None
      end
  | Sub a b =>
      match bnd be a, bnd be b with
      | Some (l1, h1, e1), Some (l2, h2, e2) =>
          let M := (mx (l1 - h2) (h1 - l2) + e1 + e2)%Z in
          if (ek M <=? 127)%Z then Some (l1 - h2, h1 - l2, e1 + e2 + re_ M)%Z else None
      | _, _ => None
      end
  | Mul a b =>
      match bnd be a, bnd be b with
      | Some (l1, h1, e1), Some (l2, h2, e2) =>
          let lo := min4 (dn (l1 * l2)) (dn (l1 * h2)) (dn (h1 * l2)) (dn (h1 * h2)) in
          let hi := max4 (up (l1 * l2)) (up (l1 * h2)) (up (h1 * l2)) (up (h1 * h2)) in
          let er := (up (mx l1 h1 * e2) + up (mx l2 h2 * e1) + up (e1 * e2))%Z in
          let M := (mx lo hi + er)%Z in
          if (ek M <=? 127)%Z then Some (lo, hi, er + re_ M)%Z else None
      | _, _ => None
      end
  | Div a b =>
      match bnd be a, bnd be b with
      | Some (l1, h1, e1), Some (l2, h2, e2) =>
          let d := (l2 - e2)%Z in
          if (0 <? d)%Z then
            let q := dup (mx l1 h1) l2 in
            let er := (dup e1 d + dup (up (q * e2)) d)%Z in
            let M := (q + er)%Z in
            let lo := if (0 <=? l1)%Z then 0%Z else (- q)%Z in
            let hi := if (h1 <=? 0)%Z then 0%Z else q in
            if (ek M <=? 127)%Z then Some (lo, hi, er + re_ M)%Z else None
          else None
      | _, _ => None
      end
  end.

Lemma holds_er f r lo hi er : holds f r (lo, hi, er) -> (0 <= er)%Z.
Proof.
  intros (_ & _ & H). pose proof (Rabs_pos (val f - r)). assert (0 <= dy er) by lra.
  unfold dy in H1. apply le_IZR. pose proof dy_pos. nra.
Qed.
Lemma dyn z : (0 <= z)%Z -> 0 <= dy z. Proof. intros H. rewrite <- dy_0. apply dy_le. exact H. Qed.

Lemma prod_range a b c d x y : a <= x <= b -> c <= y <= d ->
  Rmin (Rmin (a * c) (a * d)) (Rmin (b * c) (b * d)) <= x * y <= Rmax (Rmax (a * c) (a * d)) (Rmax (b * c) (b * d)).
Proof.
  intros Hx Hy.
  assert (L : Rmin (a * y) (b * y) <= x * y <= Rmax (a * y) (b * y)).
  { unfold Rmin, Rmax. destruct (Rle_dec (a * y) (b * y)); destruct (Rle_lt_dec 0 y); nra. }
  assert (La : Rmin (a * c) (a * d) <= a * y <= Rmax (a * c) (a * d)).
  { unfold Rmin, Rmax. destruct (Rle_dec (a * c) (a * d)); destruct (Rle_lt_dec 0 a); nra. }
  assert (Lb : Rmin (b * c) (b * d) <= b * y <= Rmax (b * c) (b * d)).
  { unfold Rmin, Rmax. destruct (Rle_dec (b * c) (b * d)); destruct (Rle_lt_dec 0 b); nra. }
  revert L La Lb. generalize (x * y) (a * y) (b * y) (a * c) (a * d) (b * c) (b * d). clear. intros.
  unfold Rmin, Rmax in *. repeat match goal with |- context [Rle_dec ?p ?q] => destruct (Rle_dec p q) | H : context [Rle_dec ?p ?q] |- _ => destruct (Rle_dec p q) end; lra.
Qed.

Lemma bnd_ok fe re be : Forall2 (fun fr b => holds (fst fr) (snd fr) b) (combine fe re) be -> length fe = length re ->
  forall e b, bnd be e = Some b -> holds (fev fe e) (rev re e) b.
Proof.
  intros HE HL. induction e as [i|x|a IHa|a IHa b IHb|a IHa b IHb|a IHa b IHb|a IHa b IHb]; intros o Ho; cbn [bnd fev rev] in *.
  - clear - HE HL Ho. revert re be i HE HL Ho. induction fe as [|f fe IH]; intros [|r re] be i HE HL Ho; try discriminate HL.
    + inversion HE; subst. destruct i; discriminate.
    + cbn [combine] in HE. inversion HE as [|? b' ? be' H1 H2]; subst. destruct i; cbn in *; [congruence|].
      apply (IH re be' i); auto.
  - destruct x as [s|s|s pl H|s m e H]; try discriminate.
    + injection Ho as <-. cbn. split; [reflexivity|]. rewrite dy_0. split; [lra|]. rewrite Rminus_0_r, Rabs_R0. lra.
    + destruct (- sc <=? e)%Z eqn:E; [|discriminate]. apply Z.leb_le in E. injection Ho as <-. cbn [holds]. split; [reflexivity|].
      assert (V : dy (cond_Zopp s (Z.pos m) * 2 ^ (e + sc)) = val (B754_finite 24 128 s m e H : F F32)).
      { unfold val, B2R, F2R. cbn [Fnum Fexp]. unfold dy. rewrite mult_IZR. change 2%Z with (radix_val radix2).
        rewrite IZR_Zpower by lia. rewrite Rmult_assoc, <- bpow_plus. do 2 f_equal. lia. }
      rewrite V. split; [split; apply Rle_refl|]. rewrite Rminus_diag_eq, Rabs_R0 by reflexivity. rewrite dy_0. lra.
  - destruct (bnd be a) as [[[l h] e]|]; [|discriminate]. injection Ho as <-. destruct (IHa _ eq_refl) as (A & B & C).
    cbn. rewrite isfin_fneg, val_fneg, !dy_opp. split; [exact A|]. split; [lra|].
    replace (- val (fev fe a) - - rev re a) with (- (val (fev fe a) - rev re a)) by ring. rewrite Rabs_Ropp. exact C.
  - destruct (bnd be a) as [[[l1 h1] e1]|]; [|discriminate]. destruct (bnd be b) as [[[l2 h2] e2]|]; [|discriminate].
    pose proof (holds_er _ _ _ _ _ (IHa _ eq_refl)) as E1. pose proof (holds_er _ _ _ _ _ (IHb _ eq_refl)) as E2.
    destruct (IHa _ eq_refl) as (A1 & B1 & C1). destruct (IHb _ eq_refl) as (A2 & B2 & C2). cbv zeta in Ho.
    set (M := (mx (l1 + l2) (h1 + h2) + e1 + e2)%Z) in *. destruct (ek M <=? 127)%Z eqn:EK; [|discriminate].
    apply Z.leb_le in EK. injection Ho as <-. set (f1 := fev fe a) in *. set (f2 := fev fe b) in *. set (r1 := rev re a) in *. set (r2 := rev re b) in *.
    assert (R : dy (l1 + l2) <= r1 + r2 <= dy (h1 + h2)) by (rewrite !dy_add; lra).
    pose proof (mx_ok _ _ _ R) as MR.
    assert (D : Rabs (val f1 + val f2 - (r1 + r2)) <= dy e1 + dy e2).
    { replace (val f1 + val f2 - (r1 + r2)) with ((val f1 - r1) + (val f2 - r2)) by ring. eapply Rle_trans; [apply Rabs_triang|lra]. }
    assert (V : Rabs (val f1 + val f2) <= dy M).
    { unfold M. rewrite !dy_add. replace (val f1 + val f2) with ((r1 + r2) + (val f1 + val f2 - (r1 + r2))) by ring.
      eapply Rle_trans; [apply Rabs_triang|lra]. }
    destruct (rnd_M M _ ltac:(unfold M, mx; lia) EK V) as [S T].
    destruct (fadd_fin n f1 f2 A1 A2 S) as (X & Y & _). cbn [holds]. split; [exact X|]. split; [exact R|]. rewrite Y, !dy_add.
    replace (rnd F32 (val f1 + val f2) - (r1 + r2)) with ((rnd F32 (val f1 + val f2) - (val f1 + val f2)) + (val f1 + val f2 - (r1 + r2))) by ring.
    eapply Rle_trans; [apply Rabs_triang|lra].
  - destruct (bnd be a) as [[[l1 h1] e1]|]; [|discriminate]. destruct (bnd be b) as [[[l2 h2] e2]|]; [|discriminate].
    pose proof (holds_er _ _ _ _ _ (IHa _ eq_refl)) as E1. pose proof (holds_er _ _ _ _ _ (IHb _ eq_refl)) as E2.
    destruct (IHa _ eq_refl) as (A1 & B1 & C1). destruct (IHb _ eq_refl) as (A2 & B2 & C2). cbv zeta in Ho.
    set (M := (mx (l1 - h2) (h1 - l2) + e1 + e2)%Z) in *. destruct (ek M <=? 127)%Z eqn:EK; [|discriminate].
    apply Z.leb_le in EK. injection Ho as <-. set (f1 := fev fe a) in *. set (f2 := fev fe b) in *. set (r1 := rev re a) in *. set (r2 := rev re b) in *.
    assert (R : dy (l1 - h2) <= r1 - r2 <= dy (h1 - l2)) by (rewrite !dy_sub; lra).
    pose proof (mx_ok _ _ _ R) as MR.
    assert (D : Rabs (val f1 - val f2 - (r1 - r2)) <= dy e1 + dy e2).
    { replace (val f1 - val f2 - (r1 - r2)) with ((val f1 - r1) + - (val f2 - r2)) by ring. eapply Rle_trans; [apply Rabs_triang|]. rewrite Rabs_Ropp. lra. }
    assert (V : Rabs (val f1 - val f2) <= dy M).
    { unfold M. rewrite !dy_add. replace (val f1 - val f2) with ((r1 - r2) + (val f1 - val f2 - (r1 - r2))) by ring.
      eapply Rle_trans; [apply Rabs_triang|lra]. }
    destruct (rnd_M M _ ltac:(unfold M, mx; lia) EK V) as [S T].
    destruct (fsub_fin n f1 f2 A1 A2 S) as (X & Y & _). cbn [holds]. split; [exact X|]. split; [exact R|]. rewrite Y, !dy_add.
    replace (rnd F32 (val f1 - val f2) - (r1 - r2)) with ((rnd F32 (val f1 - val f2) - (val f1 - val f2)) + (val f1 - val f2 - (r1 - r2))) by ring.
    eapply Rle_trans; [apply Rabs_triang|lra].
  - destruct (bnd be a) as [[[l1 h1] e1]|]; [|discriminate]. destruct (bnd be b) as [[[l2 h2] e2]|]; [|discriminate].
    pose proof (holds_er _ _ _ _ _ (IHa _ eq_refl)) as E1. pose proof (holds_er _ _ _ _ _ (IHb _ eq_refl)) as E2.
    destruct (IHa _ eq_refl) as (A1 & B1 & C1). destruct (IHb _ eq_refl) as (A2 & B2 & C2). cbv zeta in Ho.
    set (lo := min4 (dn (l1 * l2)) (dn (l1 * h2)) (dn (h1 * l2)) (dn (h1 * h2))) in *.
    set (hi := max4 (up (l1 * l2)) (up (l1 * h2)) (up (h1 * l2)) (up (h1 * h2))) in *.
    set (er := (up (mx l1 h1 * e2) + up (mx l2 h2 * e1) + up (e1 * e2))%Z) in *.
    set (M := (mx lo hi + er)%Z) in *. destruct (ek M <=? 127)%Z eqn:EK; [|discriminate].
    apply Z.leb_le in EK. injection Ho as <-. set (f1 := fev fe a) in *. set (f2 := fev fe b) in *. set (r1 := rev re a) in *. set (r2 := rev re b) in *.
    assert (R : dy lo <= r1 * r2 <= dy hi).
    { pose proof (prod_range _ _ _ _ _ _ B1 B2) as P.
      assert (L : forall p q, (min4 (dn (l1 * l2)) (dn (l1 * h2)) (dn (h1 * l2)) (dn (h1 * h2)) <= dn (p * q))%Z -> dy lo <= dy p * dy q).
      { intros p q Q. eapply Rle_trans; [apply dy_le; exact Q|apply dn_le]. }
      assert (H : forall p q, (up (p * q) <= max4 (up (l1 * l2)) (up (l1 * h2)) (up (h1 * l2)) (up (h1 * h2)))%Z -> dy p * dy q <= dy hi).
      { intros p q Q. eapply Rle_trans; [apply up_ge|apply dy_le; exact Q]. }
      assert (L1 := L l1 l2 ltac:(unfold min4; lia)). assert (L2 := L l1 h2 ltac:(unfold min4; lia)).
      assert (L3 := L h1 l2 ltac:(unfold min4; lia)). assert (L4 := L h1 h2 ltac:(unfold min4; lia)).
      assert (H1 := H l1 l2 ltac:(unfold max4; lia)). assert (H2 := H l1 h2 ltac:(unfold max4; lia)).
      assert (H3 := H h1 l2 ltac:(unfold max4; lia)). assert (H4 := H h1 h2 ltac:(unfold max4; lia)).
      split.
      - eapply Rle_trans; [|apply P]. repeat apply Rmin_glb; assumption.
      - eapply Rle_trans; [apply P|]. repeat apply Rmax_lub; assumption. }
    pose proof (mx_ok _ _ _ R) as MR. pose proof (mx_ok _ _ _ B1) as M1. pose proof (mx_ok _ _ _ B2) as M2.
    assert (D : Rabs (val f1 * val f2 - r1 * r2) <= dy er).
    { replace (val f1 * val f2 - r1 * r2) with (r1 * (val f2 - r2) + (r2 * (val f1 - r1) + (val f1 - r1) * (val f2 - r2))) by ring.
      unfold er. rewrite !dy_add.
      pose proof (up_ge (mx l1 h1) e2). pose proof (up_ge (mx l2 h2) e1). pose proof (up_ge e1 e2).
      pose proof (Rabs_pos r1). pose proof (Rabs_pos r2). pose proof (Rabs_pos (val f1 - r1)). pose proof (Rabs_pos (val f2 - r2)).
      eapply Rle_trans; [apply Rabs_triang|]. rewrite Rplus_assoc. apply Rplus_le_compat.
      - rewrite Rabs_mult. eapply Rle_trans; [|exact H]. apply Rmult_le_compat; assumption.
      - eapply Rle_trans; [apply Rabs_triang|]. apply Rplus_le_compat; rewrite Rabs_mult.
        + eapply Rle_trans; [|exact H0]. apply Rmult_le_compat; assumption.
        + eapply Rle_trans; [|exact H1]. apply Rmult_le_compat; assumption. }
    assert (V : Rabs (val f1 * val f2) <= dy M).
    { unfold M. rewrite !dy_add. replace (val f1 * val f2) with ((r1 * r2) + (val f1 * val f2 - (r1 * r2))) by ring.
      eapply Rle_trans; [apply Rabs_triang|lra]. }
    assert (PM : (0 <= M)%Z).
    { assert (0 <= dy M) by (pose proof (Rabs_pos (val f1 * val f2)); lra). unfold dy in H. apply le_IZR. pose proof dy_pos. nra. }
    destruct (rnd_M M _ PM EK V) as [S T].
    destruct (fmul_fin n f1 f2 A1 A2 S) as (X & Y & _). cbn [holds]. split; [exact X|]. split; [exact R|]. rewrite Y, !dy_add.
    replace (rnd F32 (val f1 * val f2) - (r1 * r2)) with ((rnd F32 (val f1 * val f2) - (val f1 * val f2)) + (val f1 * val f2 - (r1 * r2))) by ring.
    eapply Rle_trans; [apply Rabs_triang|lra].
  - destruct (bnd be a) as [[[l1 h1] e1]|]; [|discriminate]. destruct (bnd be b) as [[[l2 h2] e2]|]; [|discriminate].
    pose proof (holds_er _ _ _ _ _ (IHa _ eq_refl)) as E1. pose proof (holds_er _ _ _ _ _ (IHb _ eq_refl)) as E2.
    destruct (IHa _ eq_refl) as (A1 & B1 & C1). destruct (IHb _ eq_refl) as (A2 & B2 & C2). cbv zeta in Ho.
    set (d := (l2 - e2)%Z) in *. destruct (0 <? d)%Z eqn:ED; [|discriminate]. apply Z.ltb_lt in ED.
    set (q := dup (mx l1 h1) l2) in *. set (er := (dup e1 d + dup (up (q * e2)) d)%Z) in *. set (M := (q + er)%Z) in *.
    destruct (ek M <=? 127)%Z eqn:EK; [|discriminate]. apply Z.leb_le in EK. injection Ho as <-.
    set (f1 := fev fe a) in *. set (f2 := fev fe b) in *. set (r1 := rev re a) in *. set (r2 := rev re b) in *.
    assert (PZ : forall z, (0 < z)%Z -> 0 < dy z). { intros z Hz. unfold dy. apply Rmult_lt_0_compat; [apply IZR_lt; exact Hz|apply bpow_gt_0]. }
    pose proof (PZ d ED) as Pd. assert (Pl : 0 < dy l2) by (apply PZ; unfold d in ED; lia).
    assert (P2 : 0 < r2) by lra. assert (Df : dy d <= val f2).
    { unfold d. rewrite dy_sub. apply Rabs_le_inv in C2. lra. }
    pose proof (mx_ok _ _ _ B1) as M1. pose proof (dup_ge (mx l1 h1) l2 ltac:(unfold d in ED; lia)) as Q1. fold q in Q1.
    assert (Q2 : Rabs r1 / r2 <= dy q).
    { eapply Rle_trans; [|exact Q1]. unfold Rdiv. apply Rmult_le_compat; [apply Rabs_pos|left; apply Rinv_0_lt_compat; exact P2|exact M1|].
      apply Rinv_le; lra. }
    assert (Q3 : Rabs (r1 / r2) <= dy q). { unfold Rdiv. rewrite Rabs_mult, Rabs_inv, (Rabs_pos_eq r2) by lra. exact Q2. }
    assert (R : dy (if (0 <=? l1)%Z then 0 else - q)%Z <= r1 / r2 <= dy (if (h1 <=? 0)%Z then 0 else q)%Z).
    { pose proof (Rabs_le_inv _ _ Q3). assert (0 < / r2) by (apply Rinv_0_lt_compat; exact P2). split.
      - destruct (0 <=? l1)%Z eqn:Z1; [|rewrite dy_opp; lra]. apply Z.leb_le in Z1. apply dyn in Z1. rewrite dy_0. unfold Rdiv. apply Rmult_le_pos; lra.
      - destruct (h1 <=? 0)%Z eqn:Z1; [|lra]. apply Z.leb_le in Z1. apply dy_le in Z1. rewrite dy_0 in *. unfold Rdiv. nra. }
    assert (D : Rabs (val f1 / val f2 - r1 / r2) <= dy er).
    { replace (val f1 / val f2 - r1 / r2) with ((val f1 - r1) / val f2 + - (r1 / r2 * (val f2 - r2) / val f2)) by (field; lra).
      unfold er. rewrite dy_add. eapply Rle_trans; [apply Rabs_triang|]. rewrite Rabs_Ropp.
      assert (Pi : 0 < / val f2) by (apply Rinv_0_lt_compat; lra). assert (Pi2 : / val f2 <= / dy d) by (apply Rinv_le; lra).
      unfold Rdiv at 1 2. rewrite !Rabs_mult. rewrite (Rabs_pos_eq (/ val f2)) by lra.
      apply Rplus_le_compat.
      - eapply Rle_trans; [|apply dup_ge; exact ED]. unfold Rdiv. apply Rmult_le_compat; try assumption; try lra. apply Rabs_pos.
      - eapply Rle_trans; [|apply dup_ge; exact ED]. unfold Rdiv at 2. apply Rmult_le_compat; try assumption; try lra.
        + apply Rmult_le_pos; apply Rabs_pos.
        + eapply Rle_trans; [|apply up_ge]. apply Rmult_le_compat; try apply Rabs_pos; assumption. }
    assert (V : Rabs (val f1 / val f2) <= dy M).
    { unfold M. rewrite !dy_add. replace (val f1 / val f2) with ((r1 / r2) + (val f1 / val f2 - (r1 / r2))) by ring.
      eapply Rle_trans; [apply Rabs_triang|lra]. }
    assert (PM : (0 <= M)%Z).
    { assert (0 <= dy M) by (pose proof (Rabs_pos (val f1 / val f2)); lra). unfold dy in H. apply le_IZR. pose proof dy_pos. nra. }
    destruct (rnd_M M _ PM EK V) as [S T].
    destruct (fdiv_fin n f1 f2 A1 ltac:(lra) S) as (X & Y & _). cbn [holds]. split; [exact X|]. split; [exact R|]. rewrite Y, !dy_add.
    replace (rnd F32 (val f1 / val f2) - (r1 / r2)) with ((rnd F32 (val f1 / val f2) - (val f1 / val f2)) + (val f1 / val f2 - (r1 / r2))) by ring.
    eapply Rle_trans; [apply Rabs_triang|lra].
Qed.
End E.
