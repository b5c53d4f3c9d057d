(** C34: unit gain of a band of the filter bank at its centre frequency. *)
From Coq Require Import Reals Lra.
From Verif Require Import Base Num Mat RNum M_Audio M_Spectro Spec P_Gain P_Gain2.
Open Scope R_scope.

(** C34: in exact arithmetic, the four filters designed for centre frequency [f] turn
    every tone of frequency [f], whatever its amplitude [a] and phase [theta], into a
    tone of the same frequency and the same amplitude, up to a transient that dies
    out; the phase shift [phi] depends on the filter only. *)
Theorem C34_unit_gain : forall rate f, (0 < rate)%Z -> 0 <= f ->
  exists phi, forall a theta eps, 0 < eps ->
  exists settled : nat, forall len k, (settled <= k < len)%nat ->
  let angle n := 2 * PI * f / IZR rate * INR n + theta in
  Rabs (nth k (cascade (N:=RN) (erb_row (N:=RN) rate f) (map (fun n => a * cos (angle n)) (seq 0 len))) 0
        - a * cos (angle k + phi)) < eps.
Proof. exact unit_gain. Qed.
Print Assumptions C34_unit_gain.

(** The rows and centre frequencies the filter bank uses are such pairs. *)
Lemma rows_of_the_bank : forall nb rate low high,
  fst (make_filters (N:=RN) nb rate low high) = map (erb_row (N:=RN) rate) (snd (make_filters (N:=RN) nb rate low high)).
Proof. reflexivity. Qed.

Example C34_example : (0 < 48000)%Z /\ 0 <= 1000 /\
  exists phi, forall eps, 0 < eps -> exists settled : nat, forall len k, (settled <= k < len)%nat ->
  Rabs (nth k (cascade (N:=RN) (erb_row (N:=RN) 48000 1000) (map (fun n => 3 * cos (2 * PI * 1000 / 48000 * INR n + 0)) (seq 0 len))) 0
        - 3 * cos (2 * PI * 1000 / 48000 * INR k + 0 + phi)) < eps.
Proof.
  split; [reflexivity|]. split; [lra|]. destruct (C34_unit_gain 48000 1000 ltac:(reflexivity) ltac:(lra)) as [phi H].
  exists phi. exact (H 3 0).
Qed.
