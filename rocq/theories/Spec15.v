(** Vocabulary for the correlation search in binary64. *)
From Coq Require Import Reals List ZArith.
From Flocq Require Import Core IEEE754.BinarySingleNaN.
From Verif Require Import Base F64 RNum.
Open Scope R_scope.

(** The complex number in a pair of floating-point numbers, and the sum of all magnitudes
    in a list of them. *)
Definition cval (z : f64 * f64) : R * R := (B2R (fst z), B2R (snd z)).
Definition size1 (l : list (f64 * f64)) : R := Rsum (map (fun z => Rabs (B2R (fst z)) + Rabs (B2R (snd z))) l).

(** Every output of the fast Fourier transform is wrong by at most 2^-44 of the sum of the
    magnitudes of the input (and 2^-950), for up to 2^32 points that do not overflow. *)
Definition fft_close (lm : Libm) : Prop :=
  forall inverse (l : list (f64 * f64)), (1 <= zlen l <= 2 ^ 32)%Z ->
    Forall (fun z => is_finite (fst z) = true /\ is_finite (snd z) = true) l -> size1 l <= bpow radix2 900 ->
    List.length (lm_fft lm inverse l) = List.length l /\
    forall k, (k < List.length l)%nat ->
      let z := nth k (lm_fft lm inverse l) (f64_ofZ 0, f64_ofZ 0) in
      let x := nth k (dft inverse (map cval l)) (0, 0) in
      is_finite (fst z) = true /\ is_finite (snd z) = true /\
      Rabs (B2R (fst z) - fst x) <= bpow radix2 (-44) * size1 l + bpow radix2 (-950) /\
      Rabs (B2R (snd z) - snd x) <= bpow radix2 (-44) * size1 l + bpow radix2 (-950).

(** The binary logarithm is wrong by at most 2^-40, between 1 and 2^32. *)
Definition log2_close (lm : Libm) : Prop :=
  forall x, is_finite x = true -> 1 <= B2R x <= bpow radix2 32 ->
    is_finite (lm_log2 lm x) = true /\ Rabs (B2R (lm_log2 lm x) - ln (B2R x) / ln 2) <= bpow radix2 (-40).

(** The exact values of a signal, and the sum of their magnitudes. *)
Definition values (s : list f64) : list R := map (fun x : f64 => B2R x) s.
Definition magnitude (s : list f64) : R := Rsum (map (fun x : f64 => Rabs (B2R x)) s).

(** The length of a hypotenuse is wrong by at most 2^-44 of the sum of the magnitudes (and
    2^-950). *)
Definition hypot_close (lm : Libm) : Prop :=
  forall x y, is_finite x = true -> is_finite y = true -> Rabs (B2R x) + Rabs (B2R y) <= bpow radix2 900 ->
    is_finite (lm_hypot lm x y) = true /\
    Rabs (B2R (lm_hypot lm x y) - R_sqrt.sqrt (B2R x * B2R x + B2R y * B2R y)) <= bpow radix2 (-44) * (Rabs (B2R x) + Rabs (B2R y)) + bpow radix2 (-950).
