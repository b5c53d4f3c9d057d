(** Vocabulary for C72. *)
From Coq Require Import Reals List ZArith.
From Verif Require Import Spec3.
Import ListNotations.
Open Scope R_scope.

(** Frame [t] of [hop] samples, counted from sample [start], counts as active: it is one
    of the first two, or it or one of the two before it is loud. *)
Definition voiced (samples : list R) (peak : R) (start hop : Z) (t : nat) : Prop :=
  (t < 2)%nat \/ exists k, (t - 2 <= k <= t)%nat /\ loud_frame samples peak start hop k.
