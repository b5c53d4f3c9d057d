(** Vocabulary for averages and scores in binary64. *)
From Coq Require Import Reals List ZArith.
From Flocq Require Import Core IEEE754.BinarySingleNaN.
From Verif Require Import F64 Spec.
Open Scope R_scope.

(** Finite and of magnitude at most 2; similarities are at most 1 up to rounding. *)
Definition similarity_like (x : f64) : Prop := is_finite x = true /\ Rabs (B2R x) <= 2.

(** The exponential is wrong by at most 2^-40 of its value, for arguments up to 16. *)
Definition exp_close (lm : Libm) : Prop :=
  forall x, is_finite x = true -> Rabs (B2R x) <= 16 ->
    is_finite (lm_exp lm x) = true /\ Rabs (B2R (lm_exp lm x) - exp (B2R x)) <= bpow radix2 (-40) * exp (B2R x).

(** The wideband score of a mean similarity: the curve, cut off at 1 and 5. *)
Definition wideband_score (scaled : bool) (x : R) : R := Rmin 5 (Rmax 1 (speech_curve scaled x)).

(** The decimal logarithm of a positive number is wrong by at most 2^-40. *)
Definition log10_accurate (lm : Libm) : Prop :=
  forall x, is_finite x = true -> 0 < B2R x ->
    is_finite (lm_log10 lm x) = true /\ Rabs (B2R (lm_log10 lm x) - ln (B2R x) / ln 10) <= bpow radix2 (-40).

(** The natural logarithm is wrong by at most 2^-40, between 1 and 2^32. *)
Definition ln_close (lm : Libm) : Prop :=
  forall x, is_finite x = true -> 1 <= B2R x <= bpow radix2 32 ->
    is_finite (lm_ln lm x) = true /\ Rabs (B2R (lm_ln lm x) - ln (B2R x)) <= bpow radix2 (-40).

(** The [k]-th of [nb] frequencies equally spaced on the scale ln (f + q), from 50 Hz up to
    (but without) [upper]; q is 9.26449 * 24.7. *)
Definition erb_q : R := 9.26449 * 24.7.
Definition erb_frequency (nb : nat) (upper : R) (k : nat) : R :=
  exp (ln (50 + erb_q) + INR k / INR nb * (ln (upper + erb_q) - ln (50 + erb_q))) - erb_q.

(** Finite and of magnitude at most 3/2. *)
Definition near_similarity (x : f64) : Prop := is_finite x = true /\ Rabs (B2R x) <= 3 / 2.
