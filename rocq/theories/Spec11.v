(** Specification vocabulary for silent references. *)
From Flocq Require Import Core IEEE754.BinarySingleNaN.
From Verif Require Import Base Num F64 M_Audio M_Spectro.

(** The filter bank for this rate has finite coefficients: nine in each band, and the
    three of the first stage after the division by the gain. *)
Definition filters_finite (lm : Libm) (nb : nat) (rate : Z) : Prop :=
  forall row : list f64, In row (fst (make_filters (N:=F64 lm) nb rate MINIMUM_FREQ (nofZ (F64 lm) (max_freq nb rate)))) ->
    (forall k, (k < 9)%nat -> is_finite (nth k row (f64_ofZ 0)) = true) /\
    (forall k, In k [0; 1; 5]%nat -> is_finite (Bdiv mode_NE (nth k row (f64_ofZ 0)) (nth 9 row (f64_ofZ 0))) = true).
