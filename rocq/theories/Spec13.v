(** Vocabulary for level matching in binary64. *)
From Coq Require Import Reals List ZArith.
From Flocq Require Import Core IEEE754.BinarySingleNaN.
From Verif Require Import F64 Spec.
Import ListNotations.
Open Scope R_scope.

(** Samples as they come from sound files: finite, of magnitude at most 2, zero or not
    smaller than 2^-100, and one of them at least 2^-40. *)
Definition recorded (l : list f64) : Prop :=
  Forall (fun x => is_finite x = true /\ Rabs (B2R x) <= 2 /\ (B2R x = 0 \/ bpow radix2 (-100) <= Rabs (B2R x))) l /\
  Exists (fun x => bpow radix2 (-40) <= Rabs (B2R x)) l.

(** The decimal logarithm is wrong by at most 2^-40, between 2^-100 and 2^100. *)
Definition log10_close (lm : Libm) : Prop :=
  forall x, is_finite x = true -> bpow radix2 (-100) <= B2R x <= bpow radix2 100 ->
    is_finite (lm_log10 lm x) = true /\ Rabs (B2R (lm_log10 lm x) - ln (B2R x) / ln 10) <= bpow radix2 (-40).

(** A power of ten is wrong by at most 2^-40 of its value, for exponents up to 40. *)
Definition pow10_close (lm : Libm) : Prop :=
  forall y, is_finite y = true -> Rabs (B2R y) <= 40 ->
    is_finite (lm_powf lm (f64_ofZ 10) y) = true /\
    Rabs (B2R (lm_powf lm (f64_ofZ 10) y) - exp (B2R y * ln 10)) <= bpow radix2 (-40) * exp (B2R y * ln 10).
