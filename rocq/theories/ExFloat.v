(** Concrete float data for the examples beside the theorems.  Not part of the
    model. *)

From Coq Require Import ZArith Reals List Lia Bool.
From Flocq Require Import Core IEEE754.Binary IEEE754.Bits.
From Verif Require Import Base Mem Backend Lanes Float LaneOps Reduce FloatOps Spec SpecReduce ExData FloatFacts LaneFacts ReduceMore.
Import ListNotations.
Local Open Scope Z_scope.

(** One NaN payload for every operation. *)
Definition nan0 (t : fmt) : Nan t.
Proof. exists (of_bits t (2 ^ (mw t + ew t) - 1)). destruct t; vm_compute; reflexivity. Defined.
(** The policy that always produces it. *)
Definition n0 (t : fmt) : nans t :=
  Build_nans t (fun _ _ => nan0 t) (fun _ _ => nan0 t) (fun _ _ => nan0 t) (fun _ _ => nan0 t) (fun _ => nan0 t)
    (fun _ _ _ => nan0 t) (fun _ => nan0 t) (fun _ _ => nan0 t) (fun _ => nan0 F32) (fun _ => nan0 t).
(** A NaN. *)
Definition qnan (t : fmt) : F t := of_bits t (2 ^ (mw t + ew t) - 1).

(** A compiler target with every optional extension, and one with none. *)
Definition all_ext : cfg := {| has_sse2 := true; has_sse3 := true; has_sse41 := true; has_fma := true |}.
(** See [all_ext]. *)
Definition no_ext : cfg := {| has_sse2 := false; has_sse3 := false; has_sse41 := false; has_fma := false |}.

(** Elements p, ..., p+n-1 of a block. *)
Definition cells {A} (v : Z -> A) (p : Z) (n : nat) : list A := map (fun i => v (p + Z.of_nat i)) (seq 0 n).

Lemma holds_block {A} lo hi (v : Z -> A) p n : lo <= p -> p + Z.of_nat n <= hi -> holds (block lo hi v) p (cells v p n).
Proof.
  intros H1 H2 i x Hi. unfold cells in Hi.
  assert (Hn : (i < n)%nat). { rewrite <- (seq_length n 0), <- (map_length (fun i => v (p + Z.of_nat i))). apply nth_error_Some. congruence. }
  rewrite nth_error_map, (nth_error_nth' _ 0%nat) in Hi by (rewrite seq_length; exact Hn). rewrite seq_nth in Hi by exact Hn. cbn in Hi.
  rewrite block_in by lia. exact Hi.
Qed.
Lemma filled_block {A} lo hi (v : Z -> A) p n : 0 < Z.of_nat n < 2 ^ 32 -> lo <= p -> p + Z.of_nat n <= hi ->
  filled (block lo hi v) p (Z.of_nat n) (cells v p n).
Proof.
  intros Hn H1 H2. split; [apply holds_block; assumption|]. split; [|exact Hn]. unfold cells. rewrite map_length, seq_length. reflexivity.
Qed.

Lemma no_nan_b {t} (l : list (F t)) : forallb (fun x => negb (isnan x)) l = true -> no_nan l.
Proof.
  intros H. apply Forall_forall. intros x Hx. rewrite forallb_forall in H. specialize (H x Hx). destruct (isnan x); [discriminate|reflexivity].
Qed.
Lemma forallb_Forall {A} (f : A -> bool) l : forallb f l = true -> Forall (fun x => f x = true) l.
Proof. intros H. apply Forall_forall. apply forallb_forall. exact H. Qed.
Lemma not_is_max {t} (r : F t) l : existsb (fun x => feq x r) l = false -> ~ is_max r l.
Proof. intros H [_ (x & Hx & E)]. enough (existsb (fun x => feq x r) l = true) by congruence. apply existsb_exists. eauto. Qed.
Lemma not_is_max' {t} (r : F t) l : forallb (fun x => fle x r) l = false -> ~ is_max r l.
Proof. intros H [M _]. enough (forallb (fun x => fle x r) l = true) by congruence. apply forallb_forall. exact M. Qed.

Lemma cells_map {A C} (f : C -> A) g p n : cells (fun a => f (g a)) p n = map f (cells g p n).
Proof. unfold cells. rewrite map_map. reflexivity. Qed.

(** Bits of a cell after a call. *)
Definition cell_bits {t X} (r : res (mem (F t) * X)) (a : Z) : option Z :=
  match r with Ok (m, _) => option_map bits (m a) | Fault _ => None end.
(** See [cell_bits]. *)
Definition cell_bits' {t} (r : res (mem (F t))) (a : Z) : option Z :=
  match r with Ok m => option_map bits (m a) | Fault _ => None end.
(** Bits of a result. *)
Definition res_bits {t} (r : res (F t)) : option Z :=
  match r with Ok x => Some (bits x) | Fault _ => None end.

Lemma cell_bits_new {t X} (r : res (mem (F t) * X)) m' z pk new k : r = Ok (m', z) -> m' pk = Some new ->
  cell_bits r pk = Some k -> new = of_bits t k.
Proof. intros -> H E. cbn in E. rewrite H in E. cbn in E. injection E as <-. symmetry. apply of_bits_bits. Qed.

(** Integer arithmetic for the reductions. *)
Definition zred : redops Z := {|
  d_zero := 0; d_lmin := 1; d_lmax := 1000000; d_add := Z.add; d_mul := Z.mul; d_fabs := Z.abs; d_vabs := Z.abs;
  d_smax := Z.max; d_smin := Z.min; d_vmax := Z.max; d_vmin := Z.min |}.
Lemma zred_exact : exact_reductions zred.
Proof. constructor; intros; cbn; lia. Qed.

Ltac fitf_leaf :=
  lazymatch goal with
  | |- filled (block _ _ _) _ _ (cells _ _ ?n) => apply (filled_block _ _ _ _ n); [split; reflexivity|lia|cbn; lia]
  | |- holds (block _ _ _) _ (cells _ _ _) => apply holds_block; cbn; lia
  | |- no_nan _ => apply no_nan_b; vm_compute; reflexivity
  | |- block _ _ _ _ = Some _ => reflexivity
  | |- isnan _ = _ => vm_compute; reflexivity
  | |- isfin _ = _ => vm_compute; reflexivity
  | |- upper_lanes_zero _ _ _ => first [intros [?|?]; discriminate | intros _ ?; reflexivity]
  | |- whole_quads _ _ => apply Z.mod_divide; [discriminate|reflexivity]
  | |- whole_vectors _ _ => apply Z.mod_divide; [discriminate|reflexivity]
  | |- aligned _ _ => apply Z.mod_divide; [discriminate|reflexivity]
  | |- integers (map (f_ofZ ?t) _) _ => apply (integers_ofZ (n0 t)); vm_compute; reflexivity
  | |- exact_reductions _ => exact zred_exact
  | |- Forall _ (_ :: _ :: nil) => repeat constructor
  | |- _ \/ _ => idtac
  | |- legal_simd_length _ _ => split; [split; reflexivity|apply Z.mod_divide; [discriminate|reflexivity]]
  | |- accessible _ _ _ => apply accessible_block; vm_compute; congruence
  | |- _ <= _ => vm_compute; congruence
  | |- _ < _ => vm_compute; reflexivity
  | |- exists _, _ => idtac
  | |- ~ _ => idtac
  | |- forall _, _ => idtac
  | |- _ = _ => vm_compute; reflexivity
  | |- _ => idtac
  end.
Ltac fitf := cbv zeta; repeat match goal with |- _ /\ _ => split end; fitf_leaf.
