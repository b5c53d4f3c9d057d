(** C03, C04, C41: the score of a whole wideband comparison, from the similarity it reports.
    In exact arithmetic. *)
From Coq Require Import Reals Lra.
From Verif Require Import Base Num RNum M_Audio M_Align M_Visqol Spec P_Report T_Same.
Open Scope R_scope.

(** C03: 1 below the similarity 0.15, else the clamped curve; scaled unless the unscaled
    mapping was asked for. *)
Theorem C03_reported_score : forall pf nb u ws files (m m' : Manager RN) calls a b r, new_manager nb (Wideband u) ws = Ok m ->
  run pf nb files (after_calls pf nb m calls) a b = (m', Ok r) ->
  moslqo r = (if Rlt_dec (vnsim r) 0.15 then 1 else Rmin 5 (Rmax 1 (speech_curve (negb u) (vnsim r)))).
Proof. exact reported_curve. Qed.
Print Assumptions C03_reported_score.

(** C03: of two comparisons the one with the higher similarity has no lower score. *)
Theorem C03_reported_monotone : forall pf1 pf2 nb1 nb2 u ws1 ws2 files1 files2 (m1 m1' m2 m2' : Manager RN) calls1 calls2 a1 b1 a2 b2 r1 r2,
  new_manager nb1 (Wideband u) ws1 = Ok m1 -> new_manager nb2 (Wideband u) ws2 = Ok m2 ->
  run pf1 nb1 files1 (after_calls pf1 nb1 m1 calls1) a1 b1 = (m1', Ok r1) -> run pf2 nb2 files2 (after_calls pf2 nb2 m2 calls2) a2 b2 = (m2', Ok r2) ->
  vnsim r1 <= vnsim r2 -> moslqo r1 <= moslqo r2.
Proof. exact reported_monotone. Qed.
Print Assumptions C03_reported_monotone.

(** C04: the score reported with the similarity 1. *)
Theorem C04_reported_score : forall pf nb u ws files (m m' : Manager RN) calls a b r, new_manager nb (Wideband u) ws = Ok m ->
  run pf nb files (after_calls pf nb m calls) a b = (m', Ok r) -> vnsim r = 1 ->
  if u then 4.1 < moslqo r < 4.2 else 4.999 < moslqo r < 5.
Proof. exact reported_top. Qed.
Print Assumptions C04_reported_score.

(** C41: so this is the score of a recording compared with itself. *)
Theorem C41_copy_score : forall pf nb u ws files (m m' : Manager RN) calls a b r (x : AudioSignal RN), new_manager nb (Wideband u) ws = Ok m ->
  (0 <= ws <= 2 ^ 20)%Z -> load_as_mono (files a) = Ok x -> load_as_mono (files b) = Ok x ->
  (1 <= sample_rate x)%Z -> (sig_len x <= 2 ^ 30)%Z ->
  run pf nb files (after_calls pf nb m calls) a b = (m', Ok r) ->
  if u then 4.1 < moslqo r < 4.2 else 4.999 < moslqo r < 5.
Proof. exact copy_top. Qed.
Print Assumptions C41_copy_score.

(** The tone against itself. *)
Example C04_reported_example : forall pf calls, exists m, new_manager (N:=RN) 21 (Wideband false) 60 = Ok m /\
  exists m' r, run pf 21 tone_world (after_calls pf 21 m calls) "ref.wav" "deg.wav" = (m', Ok r) /\ vnsim r = 1 /\ 4.999 < moslqo r < 5.
Proof.
  intros pf calls. destruct (C41_example pf calls) as (m & Hm & m' & r & H & V & _). exists m. split; [exact Hm|]. exists m', r. split; [exact H|]. split; [exact V|].
  exact (C04_reported_score pf 21 false 60 tone_world m m' calls "ref.wav" "deg.wav" r Hm H V).
Qed.
