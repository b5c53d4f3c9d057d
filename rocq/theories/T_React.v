(** C67: how much the score changes when the similarities change, in exact arithmetic. *)
From Coq Require Import Reals Lra.
From Verif Require Import Base Num RNum M_Audio M_Visqol M_Svr Spec T_Same T_Svr P_React.
Open Scope R_scope.

(** Wideband: at most 17 times (unscaled: 14.1 times) the change of the mean similarity ... *)
Theorem C67_wideband_reacts_smoothly : forall nb unscaled w (m m1 m2 : Manager RN) calls1 calls2 pf files1 files2 a b c d r s,
  new_manager nb (Wideband unscaled) w = Ok m ->
  run pf nb files1 (after_calls pf nb m calls1) a b = (m1, Ok r) -> run pf nb files2 (after_calls pf nb m calls2) c d = (m2, Ok s) ->
  0.15 <= vnsim r -> 0.15 <= vnsim s -> Rabs (moslqo r - moslqo s) <= (if unscaled then 14.1 else 17) * Rabs (vnsim r - vnsim s).
Proof. exact C67_wide. Qed.
Print Assumptions C67_wideband_reacts_smoothly.

(** ... but it jumps at 0.15, however close the two similarities are. *)
Theorem C67_jump_at_0_15 : forall nb unscaled w (m m1 m2 : Manager RN) calls1 calls2 pf files1 files2 a b c d r s,
  new_manager nb (Wideband unscaled) w = Ok m ->
  run pf nb files1 (after_calls pf nb m calls1) a b = (m1, Ok r) -> run pf nb files2 (after_calls pf nb m calls2) c d = (m2, Ok s) ->
  vnsim r < 0.15 <= vnsim s -> (if unscaled then 0.211 else 0.456) < moslqo s - moslqo r.
Proof. exact C67_jump_lemma. Qed.
Print Assumptions C67_jump_at_0_15.

(** Fullband with the shipped model: at most 12.5 times the summed changes of the 32
    band similarities. *)
Theorem C67_fullband_reacts_smoothly : forall ws (m m1 m2 : Manager RN) calls1 calls2 pf files1 files2 a b c d r s,
  new_manager 32 (Fullband (Some shipped_model)) ws = Ok m ->
  run pf 32 files1 (after_calls pf 32 m calls1) a b = (m1, Ok r) -> run pf 32 files2 (after_calls pf 32 m calls2) c d = (m2, Ok s) ->
  0.15 <= vnsim r -> 0.15 <= vnsim s ->
  Rabs (moslqo r - moslqo s) <= 12.5 * Rsum (map (fun xy => Rabs (fst xy - snd xy)) (combine (fvnsim r) (fvnsim s))).
Proof. exact C67_full. Qed.
Print Assumptions C67_fullband_reacts_smoothly.

(** The tone of [C41_example], wideband; fullband in [C65_example]. *)
Example C67_example : forall pf calls, exists m, new_manager (N:=RN) 21 (Wideband false) 60 = Ok m /\
  exists m' r, run pf 21 tone_world (after_calls pf 21 m calls) "ref.wav" "deg.wav" = (m', Ok r) /\ 0.15 <= vnsim r.
Proof.
  intros pf calls. destruct (C41_example pf calls) as (m & Hm & m' & r & H & V & _).
  exists m. split; [exact Hm|]. exists m', r. split; [exact H|]. rewrite V. change (0.15 <= 1). lra.
Qed.
