(** C63: the filters are stable; the spectrogram is bounded by the peak of the signal. *)
From Coq Require Import Reals Lra.
From Flocq Require Import Core.
From Verif Require Import Base Num Mat RNum M_Audio M_Spectro Spec P_Spectro P_Spectro2 P_R P_Bands P_Gain P_Gain2 P_Stable T_Spectro.
Open Scope R_scope.

(** C63: in exact arithmetic the output of a band's four filters is bounded by a
    constant times the peak of the input.  The constant depends on the rate and the
    centre frequency, not on the input or its length. *)
Theorem C63_filters_are_stable : forall rate f, (0 < rate)%Z -> 0 <= f -> exists K, 0 <= K /\
  forall (x : list R) peak, (forall a, In a x -> Rabs a <= peak) ->
  forall b, In b (cascade (N:=RN) (erb_row (N:=RN) rate f) x) -> Rabs b <= K * peak.
Proof. exact C63_stable. Qed.
Print Assumptions C63_filters_are_stable.

(** C63: after any sound has ended, the output of the filters dies out. *)
Theorem C63_filters_die_out : forall rate f, (0 < rate)%Z -> 0 <= f -> forall (x : list R) eps, 0 < eps ->
  exists settled : nat, forall len k, (settled <= k < List.length x + len)%nat ->
  Rabs (nth k (cascade (N:=RN) (erb_row (N:=RN) rate f) (x ++ repeat 0 len)) 0) < eps.
Proof. exact C63_dies. Qed.
Print Assumptions C63_filters_die_out.

(** C63: every entry of every spectrogram is at most a constant times the peak of the
    signal; the constant is the same for all signals, lengths, windows, frames and
    bands, and for every state the filter bank was left in by earlier signals. *)
Theorem C63_spectrogram_is_bounded : forall nb rate minf, (1 <= nb)%nat -> 0 <= minf ->
  minf < Rmin (IZR (if Nat.eqb nb 21 then 8000 else rate / 2)) (IZR rate / 2) ->
  exists K, 0 <= K /\ forall (fb fb' : Filterbank RN) s w sp peak k j,
  fb_min_freq fb = minf -> sample_rate s = rate -> (1 <= win_size w)%Z -> (0 < hop_size w)%Z ->
  build nb fb s w = (fb', Ok sp) -> (forall a, In a (data_matrix s) -> Rabs a <= peak) ->
  (k < nb)%nat -> (j < mcols (sp_data sp))%nat ->
  0 <= mget (sp_data sp) k j <= K * peak.
Proof. exact C63_spectrogram. Qed.
Print Assumptions C63_spectrogram_is_bounded.

Example C63_filter_example : exists K, forall n b,
  In b (cascade (N:=RN) (erb_row (N:=RN) 48000 1000) (repeat (1 / 2) n)) -> Rabs b <= K.
Proof.
  destruct (C63_filters_are_stable 48000 1000 ltac:(reflexivity) ltac:(lra)) as (K & PK & H). exists (K * (1 / 2)). intros n b Hb.
  apply (H (repeat (1 / 2) n)); auto. intros a Ha. apply repeat_spec in Ha. subst a. rewrite Rabs_pos_eq; lra.
Qed.
(** The signal and window of [C32_example]: a spectrogram exists and its 50 Hz row is bounded. *)
Example C63_example : exists K fb' sp,
  let s := @Build_AudioSignal RN (repeat 1 8) 16000 in
  let w := @Build_AnalysisWindow RN 4 (1 / 4) in
  build 21 (new_filterbank 21 (MINIMUM_FREQ (N:=RN))) s w = (fb', Ok sp) /\
  forall j, (j < mcols (sp_data sp))%nat -> 0 <= mget (sp_data sp) 0 j <= K.
Proof.
  destruct C32_example as (fb' & sp & B & U). cbv zeta in B.
  assert (M : MINIMUM_FREQ (N:=RN) = 50) by reflexivity.
  destruct (C63_spectrogram_is_bounded 21 16000 50 ltac:(lia) ltac:(lra) U) as (K & PK & H).
  exists (K * 1), fb', sp. cbv zeta. split; [exact B|]. intros j Hj.
  apply (H _ _ _ _ _ 1 0%nat j) with (5 := B); auto; try reflexivity.
  - cbn [win_size]. lia.
  - unfold hop_size, as_usize. cbn [RN ncast nmul nofZ win_size win_overlap].
    replace (4 * (1 / 4)) with (IZR 1) by lra. rewrite Ztrunc_IZR. reflexivity.
  - cbn [data_matrix]. intros a Ha. apply repeat_spec in Ha. subst a. rewrite Rabs_R1. lra.
  - lia.
Qed.
