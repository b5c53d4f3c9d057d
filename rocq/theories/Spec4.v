(** Specification vocabulary for properties about binary64 arithmetic. *)
From Coq Require Import Reals.
From Flocq Require Import Core IEEE754.BinarySingleNaN.
From Verif Require Import Base Num Mat F64.
Open Scope R_scope.

(** A finite number in the closed interval. *)
Definition within (lo hi : R) (x : f64) : Prop := is_finite x = true /\ lo <= B2R x <= hi.

(** The power function is roughly right at the two places where the similarity
    index uses it: 0.01 squared is about 0.0001 and 0.03 squared about 0.0009. *)
Definition squares_sane (lm : Libm) : Prop :=
  within (/ 16384) 1 (lm_powf lm (f64_lit 1 2) (f64_ofZ 2)) /\
  within (/ 2048) 1 (lm_powf lm (f64_lit 3 2) (f64_ofZ 2)).

(** Every entry of a patch is a finite number between -128 and 128 (dB). *)
Definition patch_in_range {lm} (m : mat (F64 lm)) : Prop := Forall (Forall (within (-128) 128)) (mdata m).
