(** Specification vocabulary for silent recordings. *)
From Flocq Require Import Core IEEE754.BinarySingleNaN.
From Verif Require Import Base Num F64.

(** A transform through which NaN spreads: if a component of one input is NaN, every
    output has a NaN component; if all components of all inputs are NaN, the real part
    of every output is NaN.  (Every output of a Fourier transform is a sum in which
    every input occurs.) *)
Definition fft_spreads_nan (lm : Libm) : Prop :=
  (forall inverse (l : list (f64 * f64)),
     (exists z, In z l /\ (is_nan (fst z) = true \/ is_nan (snd z) = true)) ->
     Forall (fun z : f64 * f64 => is_nan (fst z) = true \/ is_nan (snd z) = true) (lm_fft lm inverse l)) /\
  (forall inverse (l : list (f64 * f64)),
     Forall (fun z : f64 * f64 => is_nan (fst z) = true /\ is_nan (snd z) = true) l ->
     Forall (fun z : f64 * f64 => is_nan (fst z) = true) (lm_fft lm inverse l)).
