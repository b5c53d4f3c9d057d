(** C53: the similarity index in binary64. *)
From Coq Require Import Reals Lra.
From Flocq Require Import Core IEEE754.BinarySingleNaN.
From Verif Require Import Base Num Mat F64 M_Audio M_Nsim.
From Verif Require Import Spec Spec4 Witness P_Base P_Mat P_F64 P_NsimF P_NsimW.
Open Scope R_scope.

(** A patch compared with itself never scores above 1, and not more than 2^-17 below. *)
Theorem C53_identical : forall lm (r : mat (F64 lm)),
  squares_sane lm -> mat_wf r -> (1 <= mrows r)%nat -> (1 <= mcols r)%nat ->
  (Z.of_nat (mrows r) <= 2 ^ 32)%Z -> (Z.of_nat (mcols r) <= 2 ^ 32)%Z -> patch_in_range r ->
  exists p, measure_patch_similarity r r = Ok p /\
    Forall (within (1 - / 131072) 1) (freq_band_means p) /\ within (1 - / 131072) 1 (similarity p).
Proof. exact C53_identical_l. Qed.
Print Assumptions C53_identical.

(** For any two patches of the same shape neither NaN nor infinity is reported. *)
Theorem C53_finite : forall lm (r d : mat (F64 lm)),
  squares_sane lm -> mat_wf r -> mat_wf d -> mrows d = mrows r -> mcols d = mcols r ->
  (1 <= mrows r)%nat -> (1 <= mcols r)%nat -> (Z.of_nat (mrows r) <= 2 ^ 32)%Z -> (Z.of_nat (mcols r) <= 2 ^ 32)%Z ->
  patch_in_range r -> patch_in_range d ->
  exists p, measure_patch_similarity r d = Ok p /\
    Forall (fun x : f64 => is_finite x = true) (freq_band_means p) /\ is_finite (similarity p : f64) = true.
Proof. exact C53_finite_l. Qed.
Print Assumptions C53_finite.

(** It does not score exactly 1: a constant patch of 3 dB scores less. *)
Theorem C53_identical_one_refuted : exists lm (r : mat (F64 lm)) p,
  squares_sane lm /\ mat_wf r /\ mrows r = 2%nat /\ mcols r = 2%nat /\ Forall (Forall (fun x : f64 => B2R x = 3)) (mdata r) /\
  measure_patch_similarity r r = Ok p /\ B2R (similarity p : f64) < 1.
Proof. exact C53_identical_one_refuted_l. Qed.
Print Assumptions C53_identical_one_refuted.

(** Unlike in exact arithmetic (C36) the similarity can exceed 1, here by more than 5 percent:
    cancellation makes a local variance of the first patch negative. *)
Theorem C53_at_most_one_refuted : exists lm (r d : mat (F64 lm)) p,
  squares_sane lm /\ mat_wf r /\ mat_wf d /\ mrows r = 2%nat /\ mcols r = 2%nat /\ mrows d = 2%nat /\ mcols d = 2%nat /\
  Forall (Forall (within 0 128)) (mdata r) /\ Forall (Forall (within 0 128)) (mdata d) /\
  measure_patch_similarity r d = Ok p /\ B2R (similarity p : f64) > 1.
Proof. exact C53_at_most_one_refuted_l. Qed.
Print Assumptions C53_at_most_one_refuted.

Example C53_example : squares_sane lm_ex /\ mat_wf strong /\ mat_wf faint /\ patch_in_range strong /\ patch_in_range faint.
Proof. split; [apply sane_ex|]. split; [split; [reflexivity|repeat constructor]|]. split; [split; [reflexivity|repeat constructor]|]. split; in_range. Qed.
