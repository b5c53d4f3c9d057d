(** Vocabulary for the global alignment. *)
From Coq Require Import Reals List ZArith.
From Verif Require Import Base RNum Spec3.
Import ListNotations.
Open Scope R_scope.

(** The closed form of the envelope of a signal, for transforms of [f] points (C15). *)
Definition envelope (f : Z) (x : list R) : list R :=
  map (fun i => Rabs (2 * (centred x i - deficit f (zlen x) * middle_bin f x i) - 1 / 1000000) + mean_signal x)
      (seq 0 (List.length x)).

(** A lag is followed if it is not zero and at most half of the reference's length. *)
Definition followed (len lag : Z) : bool := (negb (lag =? 0) && (Z.abs lag <=? len / 2))%Z%bool.

(** A recording moved by [lag] samples: a negative lag drops samples at the front, a
    positive one puts silence there. *)
Definition moved {A} (silence : A) (lag : Z) (l : list A) : list A :=
  if (lag <? 0)%Z then skipn (Z.to_nat (- lag)) l else repeat silence (Z.to_nat lag) ++ l.

(** Two recordings of [n] samples cut to where they overlap at a lag of [k] samples:
    sample [i + k] of the first lies on sample [i] of the second. *)
Definition overlap1 {A} (k : Z) (l : list A) : list A := firstn (Z.to_nat (zlen l - Z.abs k)) (skipn (Z.to_nat k) l).
Definition overlap2 {A} (k : Z) (l : list A) : list A := firstn (Z.to_nat (zlen l - Z.abs k)) (skipn (Z.to_nat (- k)) l).
