(** Specification vocabulary for the alignment properties (exact arithmetic). *)
From Coq Require Import Reals.
From Flocq Require Import Core.
From Verif Require Import Base Num RNum.
Open Scope R_scope.

(** A signal extended with zeros on both sides. *)
Definition at0 (l : list R) (i : Z) : R := if (i <? 0)%Z then 0 else nth (Z.to_nat i) l 0.

(** Linear cross-correlation: the sum over n of s1[n + lag] * s2[n]. *)
Definition correlation (s1 s2 : list R) (lag : Z) : R :=
  Rsum (map (fun n => at0 s1 (Z.of_nat n + lag) * at0 s2 (Z.of_nat n)) (seq 0 (List.length s2))).

(** Length of the longer signal. *)
Definition longest (s1 s2 : list R) : Z := Z.max (zlen s1) (zlen s2).

(** Arithmetic mean of a signal, and the signal with its mean removed. *)
Definition mean_signal (x : list R) : R := Rsum x / INR (List.length x).
Definition centred (x : list R) (a : nat) : R := nth a x 0 - mean_signal x.

(** The alternating sum of a signal. *)
Definition alternating (x : list R) : R := Rsum (map (fun a => (-1) ^ a * nth a x 0) (seq 0 (List.length x))).

(** How much of the middle bin of an [f]-point transform is missing from the
    one-sided spectrum of a signal of [len] samples (in units of one bin). *)
Definition deficit (f len : Z) : R :=
  if Z.even f then (if (len =? f)%Z then 0 else 1)
  else if Z.odd len then 0
  else if (len =? f - 1)%Z then 1 else 2.

(** The component of the centred signal in the middle bin, at sample [i]. *)
Definition middle_bin (f : Z) (x : list R) (i : nat) : R :=
  Rsum (map (fun a => centred x a * cos (2 * PI * IZR (f / 2) * (INR i - INR a) / IZR f))
            (seq 0 (List.length x))) / IZR f.

(** [z] is an analytic signal of the (zero mean) signal [x]: its real part is
    [x] and its discrete spectrum vanishes at the negative frequencies, that is
    in the bins above the middle one. *)
Definition analytic (z : list (R * R)) (x : list R) : Prop :=
  map fst z = x /\
  forall k, (List.length x < 2 * k)%nat -> (k < List.length x)%nat -> nth k (dft false z) (0, 0) = (0, 0).
Definition modulus (z : R * R) : R := R_sqrt.sqrt (fst z * fst z + snd z * snd z).

(** ** Voice activity, exactly *)

(** A sample as 16-bit integer relative to the peak: times 32768, truncated, saturated. *)
Definition sample_level (peak x : R) : Z := Z.max (- 32768) (Z.min 32767 (Ztrunc (x / peak * 32768))).

(** Frame [t] of [hop] samples, counted from sample [start], has a root mean
    square of at least 5000. *)
Definition loud_frame (samples : list R) (peak : R) (start hop : Z) (t : nat) : Prop :=
  (25000000 * hop <= fold_right (fun e s => (e * e + s)%Z) 0%Z
     (map (sample_level peak) (firstn (Z.to_nat hop) (skipn (Z.to_nat start + t * Z.to_nat hop) samples))))%Z.

(** [m] is a largest of the samples. *)
Definition is_peak (m : R) (samples : list R) : Prop := In m samples /\ Forall (fun x => x <= m) samples.
