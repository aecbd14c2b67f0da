(** Specification vocabulary for the transcendental functions. *)

From Coq Require Import ZArith Reals List Lia.
From Flocq Require Import Core IEEE754.Binary IEEE754.Bits.
From Verif Require Import Base Mem Backend Args Lanes Float LaneOps Spec SpecLane.
Local Open Scope Z_scope.

(** The instruction sets with vectorised transcendental functions: AVX, and SSE
    when SSE2 is there. *)
Definition math_isa (c : cfg) (I : isa) : Prop := I = AVX \/ (I = SSE /\ has_sse2 c = true).
(** The same for the back-ends of the float buffer functions. *)
Definition math_backend (c : cfg) (B : backend) : Prop := B = AVX32 \/ (B = SSE32 /\ has_sse2 c = true).

(** [x] is within a relative error of [e] of the real number [y]. *)
Definition close (e : R) (x : F F32) (y : R) : Prop :=
  isfin x = true /\ (Rabs (val x - y) <= e * Rabs y)%R.
(** A positive normal number. *)
Definition normal_positive (x : F F32) : Prop :=
  isfin x = true /\ (bpow radix2 (-126) <= val x)%R.

(** The call succeeds, every out[i] is related by [P] to inp[i], and nothing
    outside out[0..len-1] changes. *)
Definition computes (P : F F32 -> F F32 -> Prop) (m : mem (F F32)) (r : res (mem (F F32))) (out inp len : Z) : Prop :=
  exists m', r = Ok m' /\
    (forall i x, 0 <= i < len -> m (inp + i) = Some x -> exists y, m' (out + i) = Some y /\ P x y) /\
    (forall a, a < out \/ out + len <= a -> m' a = m a).
(** The same with two inputs. *)
Definition computes2 (P : F F32 -> F F32 -> F F32 -> Prop) (m : mem (F F32)) (r : res (mem (F F32))) (out inp1 inp2 len : Z) : Prop :=
  exists m', r = Ok m' /\
    (forall i x1 x2, 0 <= i < len -> m (inp1 + i) = Some x1 -> m (inp2 + i) = Some x2 ->
      exists y, m' (out + i) = Some y /\ P x1 x2 y) /\
    (forall a, a < out \/ out + len <= a -> m' a = m a).

(** What a buffer function with one input of [len] samples needs. *)
Definition unary_fit (B : backend) (m : mem (F F32)) (out inp len : Z) : Prop :=
  legal_simd_length B len /\ aligned B out /\ accessible m out len /\ simd_fit B m out len (APtr inp).
(** The same with two inputs. *)
Definition binary_fit (B : backend) (m : mem (F F32)) (out inp1 inp2 len : Z) : Prop :=
  legal_simd_length B len /\ aligned B out /\ accessible m out len /\
  simd_fit B m out len (APtr inp1) /\ simd_fit B m out len (APtr inp2).

(** Logarithms to other bases, and musical units, on the real numbers. *)
Definition log_base (b x : R) : R := (ln x / ln b)%R.
(** Frequency in Hz of a (fractional) MIDI key, A4 = key 69 = 440 Hz. *)
Definition hertz_of_key (k : R) : R := (440 * Rpower 2 ((k - 69) / 12))%R.
(** The key of a frequency. *)
Definition key_of_hertz (f : R) : R := (69 + 12 * log_base 2 (f / 440))%R.
(** Frequency of a note in octaves, A4 = octave 4.75. *)
Definition hertz_of_octave (o : R) : R := (440 * Rpower 2 (o - 4.75))%R.
(** The octave of a frequency. *)
Definition octave_of_hertz (f : R) : R := (4.75 + log_base 2 (f / 440))%R.
(** Frequency ratio of an interval in semitones. *)
Definition ratio_of_semitones (s : R) : R := Rpower 2 (s / 12).
(** The interval of a frequency ratio. *)
Definition semitones_of_ratio (r : R) : R := (12 * log_base 2 r)%R.
(** Amplitude of a level in dB. *)
Definition amplitude_of_db (d : R) : R := Rpower 10 (d / 20).
(** The level of an amplitude. *)
Definition db_of_amplitude (a : R) : R := (20 * log_base 10 a)%R.
