(** C58: copies of the reference in another volume or polarity, in exact arithmetic. *)
From Coq Require Import Reals Lra Lia String.
From Verif Require Import Base Num Mat RNum M_Audio M_Align M_Spectro M_Patch M_Nsim M_Visqol Spec Spec3 P_Base P_R P_Run P_Xcorr P_Env P_Self P_Total3 P_Volume P_Copy T_Same T_Volume.
Open Scope R_scope.

(** C58: whatever the degraded file holds, if the global alignment makes it the
    reference times a number other than 0, positive or negative, and the comparison
    succeeds, then all similarities are 1, all deviations 0, and the score is what the
    mapping gives for similarity 1. *)
Theorem C58_scaled_copy_is_perfect : forall pf nb v ws (m m' : Manager RN) calls files a b l rate (y : AudioSignal RN) g lag r,
  new_manager nb v ws = Ok m -> (0 <= ws <= 2 ^ 20)%Z -> g <> 0 ->
  load_as_mono (files a) = Ok (@Build_AudioSignal RN l rate) -> load_as_mono (files b) = Ok y ->
  globally_align pf (@Build_AudioSignal RN l rate) y = Ok (Some (@Build_AudioSignal RN (map (Rmult g) l) rate, lag)) ->
  (1 <= rate)%Z -> (zlen l <= 2 ^ 30)%Z ->
  run pf nb files (after_calls pf nb m calls) a b = (m', Ok r) ->
  fvnsim r = repeat 1 nb /\ vnsim r = 1 /\ fstdnsim r = repeat 0 nb /\
  (forall p, In p (patch_sims r) -> similarity p = 1 /\ freq_band_means p = repeat 1 nb /\ freq_band_stddevs p = repeat 0 nb) /\
  predict_quality (mg_mapper m) (repeat 1 nb) = Ok (moslqo r).
Proof. exact C58_all. Qed.
Print Assumptions C58_scaled_copy_is_perfect.

(** The hypothesis on the alignment cannot be dropped: an inverted copy of a signal
    with an offset is moved by a sample, although it was in place, and is then no
    multiple of the reference any more. *)
Theorem C58_inverted_copy_misaligned_refuted : exists l : list R, not_silent l /\ zlen l = 32%Z /\
  forall pf rate, (1 <= rate)%Z -> exists al lag,
    globally_align pf (@Build_AudioSignal RN l rate) (@Build_AudioSignal RN (map (Rmult (-1)) l) rate) = Ok (Some (al, lag)) /\
    lag <> 0 /\ forall g, data_matrix al <> map (Rmult g) l.
Proof.
  exists zig. split; [exists 3; split; [left; reflexivity|lra]|]. split; [reflexivity|].
  intros pf rate Hr. exists (@Build_AudioSignal RN (0 :: map (Rmult (-1)) zig) rate), (1 / IZR rate). split; [apply zig_align|]. split.
  - unfold Rdiv. rewrite Rmult_1_l. apply Rinv_neq_0_compat. apply not_0_IZR. lia.
  - intros g H. apply (f_equal (@List.length R)) in H. discriminate H.
Qed.
Print Assumptions C58_inverted_copy_misaligned_refuted.

(** A constant signal against an inverted copy at half the volume. *)
Definition upside_world (p : string) : wav :=
  if (p =? "ref.wav")%string then flat_file 16384 else if (p =? "inv.wav")%string then flat_file (-8192) else WavBad 2.
Lemma corr_neg a b k : correlation (repeat a 120) (repeat (- b) 120) k = - correlation (repeat a 120) (repeat b 120) k.
Proof.
  unfold correlation. rewrite !repeat_length. replace (- Rsum _) with (-1 * Rsum (map (fun n => at0 (repeat a 120) (Z.of_nat n + k) * at0 (repeat b 120) (Z.of_nat n)) (seq 0 120))) by ring.
  rewrite <- Rsum_scale, map_map. f_equal. apply map_ext_in. intros n Hn. apply in_seq in Hn. rewrite !at0_nat, !nth_flat by lia. ring.
Qed.
Lemma flat_align_neg pf v u : 0 < v -> u < - (1 / 1000000) -> globally_align pf (flat_signal v) (flat_signal u) = Ok (Some (flat_signal u, 0)).
Proof.
  intros Hv Hu. unfold globally_align, flat_signal. cbn [data_matrix]. change (num RN) with R. rewrite !flat_env. cbn [bind].
  set (a := v + _). set (b := u + _). assert (0 < a) by (unfold a; lra). assert (0 < - b) by (unfold b; lra).
  assert (L : longest (repeat a 120) (repeat b 120) = 120%Z) by (unfold longest, zlen; rewrite !repeat_length; reflexivity).
  destruct (C13_all pf (repeat a 120) (repeat b 120)) as (lag & E & Hr & M & _); [rewrite L; lia|]. rewrite L in *.
  assert (E' : calculate_best_lag (N:=RN) pf (repeat a 120) (repeat b 120) = Ok (Some lag)) by exact E.
  rewrite E'. cbn [bind]. assert (lag = 0%Z) as ->; [|reflexivity].
  destruct (Z.eq_dec lag 0) as [|N0]; auto. exfalso. specialize (M 0%Z ltac:(lia)).
  destruct (flat_corr a (- b) lag) as [A B]; auto.
  replace b with (- - b) in M by ring. rewrite !(corr_neg a (- b)), !Rabs_Ropp, !Rabs_pos_eq in M; lra.
Qed.
Lemma flat_inv : flat_signal (-8192 / 32767) = @Build_AudioSignal RN (map (Rmult (-1 / 2)) (repeat (16384 / 32767) 120)) 50.
Proof. unfold flat_signal. f_equal. change (num RN) with R. rewrite repeat_map. f_equal. field. Qed.
Example C58_example : forall pf, exists m m' r, new_manager (N:=RN) 32 (Fullband (Some flat_model)) 60 = Ok m /\
  load_as_mono (upside_world "ref.wav") = Ok (@Build_AudioSignal RN (repeat (16384 / 32767) 120) 50) /\
  load_as_mono (upside_world "inv.wav") = Ok (@Build_AudioSignal RN (map (Rmult (-1 / 2)) (repeat (16384 / 32767) 120)) 50) /\
  globally_align pf (@Build_AudioSignal RN (repeat (16384 / 32767) 120) 50) (@Build_AudioSignal RN (map (Rmult (-1 / 2)) (repeat (16384 / 32767) 120)) 50) =
    Ok (Some (@Build_AudioSignal RN (map (Rmult (-1 / 2)) (repeat (16384 / 32767) 120)) 50, 0)) /\
  run pf 32 upside_world m "ref.wav" "inv.wav" = (m', Ok r).
Proof.
  intros pf. pose (m := match new_manager (N:=RN) 32 (Fullband (Some flat_model)) 60 with Ok m => m | _ => {| mg_search_window := 0; mg_creator := VadPatchCreator 0; mg_mapper := SpeechMapper false; mg_filterbank := new_filterbank (N:=RN) 0 0 |} end).
  exists m.
  assert (Lr : load_as_mono (N:=RN) (upside_world "ref.wav") = Ok (flat_signal (16384 / 32767))) by (apply flat_load; lia).
  assert (Lh : load_as_mono (N:=RN) (upside_world "inv.wav") = Ok (flat_signal (-8192 / 32767))) by (apply flat_load; lia).
  assert (S : forall v, sig_len (flat_signal v) = 120%Z) by (intros v; unfold sig_len, zlen, flat_signal; cbn [data_matrix]; rewrite repeat_length; reflexivity).
  destruct (C48_fullband_succeeds pf 32 flat_model 60 m [] upside_world "ref.wav" "inv.wav" (flat_signal (16384 / 32767)) (flat_signal (-8192 / 32767)) 1) as (m' & r & H);
    rewrite ?S; try reflexivity; try lia; try exact Lr; try exact Lh.
  { intros fv Hf. exists 3. unfold svr_predict. cbn [svr_features flat_model svr_value]. unfold zlen. rewrite Hf. reflexivity. }
  exists m', r. split; [reflexivity|]. split; [exact Lr|]. split; [rewrite <- flat_inv; exact Lh|]. split; [|exact H].
  etransitivity; [etransitivity; [|apply (flat_align_neg pf (16384 / 32767) (-8192 / 32767)); lra]|].
  - f_equal. symmetry. exact flat_inv.
  - rewrite flat_inv. reflexivity.
Qed.
