(** C65: the scores of the model file in the repository, in exact arithmetic. *)
From Coq Require Import Reals Lra Lia.
From Verif Require Import Base Num RNum M_Audio M_Visqol M_Svr Spec T_Same P_Svr2.
Open Scope R_scope.

(** No fullband comparison, of whatever recordings, scores more than 4.9. *)
Theorem C65_never_above_4_9 : forall pf ws files (m m' : Manager RN) calls a b r,
  new_manager 32 (Fullband (Some shipped_model)) ws = Ok m ->
  run pf 32 files (after_calls pf 32 m calls) a b = (m', Ok r) -> 1 <= moslqo r <= 49 / 10.
Proof. exact C65_upper. Qed.
Print Assumptions C65_never_above_4_9.

(** A recording compared with itself scores 4.732, not 5. *)
Theorem C65_perfect_copy : forall pf ws (m m' : Manager RN) calls files a b (x : AudioSignal RN) r,
  new_manager 32 (Fullband (Some shipped_model)) ws = Ok m -> (0 <= ws <= 2 ^ 20)%Z ->
  load_as_mono (files a) = Ok x -> load_as_mono (files b) = Ok x ->
  (1 <= sample_rate x)%Z -> (sig_len x <= 2 ^ 30)%Z ->
  run pf 32 files (after_calls pf 32 m calls) a b = (m', Ok r) -> 4731 / 1000 <= moslqo r <= 4733 / 1000.
Proof. exact C65_copy. Qed.
Print Assumptions C65_perfect_copy.

(** And that is not the best score there is: some band similarities, none above 1, score
    more than similarity 1 in every band.  So the score is not monotone. *)
Theorem C65_monotone_refuted : exists u, List.length u = 32%nat /\ Forall (fun x => 0 <= x <= 1) u /\
  exists qu q1, predict_quality (N:=RN) (SvrMapper shipped_model) u = Ok qu /\
    predict_quality (N:=RN) (SvrMapper shipped_model) (repeat 1 32) = Ok q1 /\ q1 + 1 / 1000 < qu.
Proof. exact C65_dip. Qed.
Print Assumptions C65_monotone_refuted.

(** The tone of [C41_example] against itself. *)
Example C65_example : forall pf calls, exists m, new_manager (N:=RN) 32 (Fullband (Some shipped_model)) 60 = Ok m /\
  exists m' r, run pf 32 tone_world (after_calls pf 32 m calls) "ref.wav" "deg.wav" = (m', Ok r) /\ 4731 / 1000 <= moslqo r <= 4733 / 1000.
Proof.
  intros. assert (exists m, new_manager (N:=RN) 32 (Fullband (Some shipped_model)) 60 = Ok m) as (m & Hm) by (eexists; reflexivity).
  exists m. split; [exact Hm|].
  assert (exists m' r, run pf 32 tone_world (after_calls pf 32 m calls) "ref.wav" "deg.wav" = (m', Ok r)) as (m' & r & H).
  { apply (C48_fullband_succeeds pf 32 shipped_model 60 m calls tone_world _ _ tone_signal tone_signal 1 Hm); rewrite ?tone_len; try reflexivity; try lia.
    - intros fv Hf. eexists. unfold svr_predict. cbn [svr_features shipped_model svr_value]. unfold zlen. rewrite Hf. reflexivity.
    - apply tone_load. auto.
    - apply tone_load. auto. }
  exists m', r. split; [exact H|]. apply (C65_perfect_copy pf 60 m m' calls tone_world "ref.wav" "deg.wav" tone_signal r Hm); [lia| | | | |exact H].
  - apply tone_load. auto.
  - apply tone_load. auto.
  - cbn. lia.
  - rewrite tone_len. lia.
Qed.
