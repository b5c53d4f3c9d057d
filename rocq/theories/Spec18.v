(** Vocabulary for C72 in binary64. *)
From Coq Require Import List ZArith.
From Flocq Require Import Core IEEE754.BinarySingleNaN.
From Verif Require Import Base F64 Spec.

(** Frame [t] of [hop] samples, counted from sample [start], counts as active: it is one of
    the first two, or it or one of the two before it is loud.  The samples are divided by
    [peak] and turned into 16-bit integers first; loud means a root mean square of at least
    5000. *)
Definition voiced_f64 (samples : list f64) (peak : f64) (start hop : Z) (t : nat) : Prop :=
  (t < 2)%nat \/ exists k, (t - 2 <= k <= t)%nat /\
    ~ quiet (vad_frame (map (fun x => Bdiv mode_NE x peak) samples) start hop k).
