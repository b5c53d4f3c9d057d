(** C41 and C48: when a comparison succeeds, and what identical inputs get, in
    exact arithmetic. *)
From Coq Require Import Reals Lra Lia String.
From Flocq Require Import Core.
From Verif Require Import Base Num Mat RNum M_Audio M_Patch M_Nsim M_Visqol Spec P_Run Spec2 Spec3 P_R P_Same2 P_Total3 P_Total2.
Open Scope R_scope.

(** C48: a fullband comparison succeeds, whatever the manager did before, if the
    common rate is a multiple of 50 Hz ([h] is a fiftieth of it, the hop), the
    reference has at least 51 frames (54 hops), both files have at most 2^30
    samples, the model predicts a value for every vector of the right length, and
    the degraded file is not too short: its length less half the reference (the
    most that alignment can cut off) is at least 22 hops and at least the
    reference less the search window and one patch. *)
Theorem C48_fullband_succeeds : forall pf nb model ws (m : Manager RN) calls files a b (rs ds : AudioSignal RN) h,
  let L := sig_len rs in let D := sig_len ds in
  new_manager nb (Fullband (Some model)) ws = Ok m -> (0 <= ws <= 2 ^ 20)%Z -> (1 <= nb)%nat ->
  (forall fv, List.length fv = nb -> exists q, svr_predict model fv = Ok q) ->
  load_as_mono (files a) = Ok rs -> load_as_mono (files b) = Ok ds ->
  sample_rate rs = (50 * h)%Z -> sample_rate ds = (50 * h)%Z -> (1 <= h)%Z ->
  (54 * h <= L <= 2 ^ 30)%Z -> (D <= 2 ^ 30)%Z -> (22 * h + L / 2 <= D)%Z ->
  (L - (20 * ws + 20) * h <= D - L / 2)%Z ->
  exists m' r, run pf nb files (after_calls pf nb m calls) a b = (m', Ok r).
Proof. exact full_total. Qed.
Print Assumptions C48_fullband_succeeds.

(** A wideband comparison succeeds if moreover the voice activity detector keeps
    at least two patches of a reference of at least 44 frames and the second of
    them, less 12 frames, starts within the degraded file; *)
Theorem C48_wideband_succeeds : forall pf nb u ws (m : Manager RN) calls files a b (rs ds : AudioSignal RN) idx h,
  let L := sig_len rs in let D := sig_len ds in let frames := (1 + (L - 4 * h) / h)%Z in
  new_manager nb (Wideband u) ws = Ok m -> (0 <= ws <= 2 ^ 20)%Z -> (1 <= nb)%nat ->
  load_as_mono (files a) = Ok rs -> load_as_mono (files b) = Ok ds ->
  sample_rate rs = (50 * h)%Z -> sample_rate ds = (50 * h)%Z -> (1 <= h)%Z ->
  (47 * h <= L <= 2 ^ 30)%Z -> (D <= 2 ^ 30)%Z -> (4 * h + L / 2 <= D)%Z ->
  vad_patch_indices pf 30 frames rs (new_window (50 * h) OVERLAP WINDOW_DURATION) = Ok idx -> (2 <= List.length idx)%nat ->
  ((nth 1 idx 0 - 12) * h <= D - L / 2)%Z ->
  (L - (30 * ws + 30) * h <= D - L / 2)%Z ->
  exists m' r, run pf nb files (after_calls pf nb m calls) a b = (m', Ok r).
Proof. exact wide_total. Qed.
Print Assumptions C48_wideband_succeeds.

(** ... for instance if some frame of the second patch (frames 30 to 59) is loud. *)
Theorem C48_wideband_loud_succeeds : forall pf nb u ws (m : Manager RN) calls files a b (rs ds : AudioSignal RN) h peak t,
  let L := sig_len rs in let D := sig_len ds in
  new_manager nb (Wideband u) ws = Ok m -> (0 <= ws <= 2 ^ 20)%Z -> (1 <= nb)%nat ->
  load_as_mono (files a) = Ok rs -> load_as_mono (files b) = Ok ds ->
  sample_rate rs = (50 * h)%Z -> sample_rate ds = (50 * h)%Z -> (1 <= h)%Z ->
  (77 * h <= L <= 2 ^ 30)%Z -> (D <= 2 ^ 30)%Z ->
  is_peak peak (data_matrix rs) -> (30 <= t < 60)%nat -> loud_frame (data_matrix rs) peak 14 h t ->
  (32 * h + L / 2 <= D)%Z -> (L - (30 * ws + 30) * h <= D - L / 2)%Z ->
  exists m' r, run pf nb files (after_calls pf nb m calls) a b = (m', Ok r).
Proof. exact wide_loud. Qed.
Print Assumptions C48_wideband_loud_succeeds.

(** C41: if the two files hold the same signal and the comparison succeeds, then
    all similarities are 1, all deviations 0, and the score is what the mapping
    gives for similarity 1. *)
Theorem C41_identical_inputs : forall pf nb v ws (m m' : Manager RN) calls files a b (x : AudioSignal RN) r,
  new_manager nb v ws = Ok m -> (0 <= ws <= 2 ^ 20)%Z ->
  load_as_mono (files a) = Ok x -> load_as_mono (files b) = Ok x ->
  (1 <= sample_rate x)%Z -> (sig_len x <= 2 ^ 30)%Z ->
  run pf nb files (after_calls pf nb m calls) a b = (m', Ok r) ->
  fvnsim r = repeat 1 nb /\ vnsim r = 1 /\ fstdnsim r = repeat 0 nb /\
  (forall p, In p (patch_sims r) -> similarity p = 1 /\ freq_band_means p = repeat 1 nb /\ freq_band_stddevs p = repeat 0 nb) /\
  predict_quality (mg_mapper m) (repeat 1 nb) = Ok (moslqo r).
Proof. exact C41_all. Qed.
Print Assumptions C41_identical_inputs.

(** Sixty periods of a tone at 50 samples a second, in two files. *)
Definition tone : list Z := List.concat (repeat [16384; -8192]%Z 60).
Definition tone_file : wav := WavOk 1 50 16 (map Some tone).
Definition tone_signal : AudioSignal RN := {| data_matrix := map (fun z => IZR z / 32767) tone : list (num RN); sample_rate := 50 |}.
Definition tone_world (p : string) : wav := if (p =? "ref.wav")%string then tone_file else if (p =? "deg.wav")%string then tone_file else WavBad 2.
Lemma tone_elem z : In z tone -> z = 16384%Z \/ z = (-8192)%Z.
Proof. intros H. unfold tone in H. apply in_concat in H as (l & Hl & Hz). apply repeat_spec in Hl. subst l. destruct Hz as [<- |[<- |[]]]; auto. Qed.
Lemma tone_load p : p = "ref.wav"%string \/ p = "deg.wav"%string -> load_as_mono (N:=RN) (tone_world p) = Ok tone_signal.
Proof.
  intros H. replace (tone_world p) with tone_file by (destruct H; subst; reflexivity). apply load_mono.
  apply Forall_forall. intros z Hz. apply tone_elem in Hz. lia.
Qed.
Lemma tone_len : sig_len tone_signal = 120%Z. Proof. unfold sig_len, zlen. cbn [data_matrix tone_signal]. rewrite map_length. reflexivity. Qed.

Definition flat_model : SvrModel RN := {| svr_features := 32; svr_value := fun _ => Some (3 : num RN) |}.
Example C48_fullband_example : forall pf calls, exists m, new_manager (N:=RN) 32 (Fullband (Some flat_model)) 60 = Ok m /\
  exists m' r, run pf 32 tone_world (after_calls pf 32 m calls) "ref.wav" "deg.wav" = (m', Ok r).
Proof.
  intros. eexists. split; [reflexivity|].
  apply (C48_fullband_succeeds pf 32 flat_model 60 _ calls tone_world _ _ tone_signal tone_signal 1); rewrite ?tone_len; try reflexivity; try lia.
  - intros fv Hf. exists 3. unfold svr_predict. cbn [svr_features flat_model svr_value]. unfold zlen. rewrite Hf. reflexivity.
  - apply tone_load. auto.
  - apply tone_load. auto.
Qed.
Example C48_wideband_example : forall pf calls, exists m, new_manager (N:=RN) 21 (Wideband false) 60 = Ok m /\
  exists m' r, run pf 21 tone_world (after_calls pf 21 m calls) "ref.wav" "deg.wav" = (m', Ok r).
Proof.
  intros. eexists. split; [reflexivity|].
  apply (C48_wideband_loud_succeeds pf 21 false 60 _ calls tone_world _ _ tone_signal tone_signal 1 (16384 / 32767) 30); rewrite ?tone_len; try reflexivity; try lia.
  - apply tone_load. auto.
  - apply tone_load. auto.
  - split.
    + apply (in_map (fun z => IZR z / 32767) tone 16384%Z). left. reflexivity.
    + apply Forall_forall. intros x Hx. apply in_map_iff in Hx as (z & <- & Hz). apply tone_elem in Hz as [-> | ->]; lra.
  - unfold loud_frame.
    match goal with |- context [map (sample_level ?pk) ?q] => assert (E : q = [16384 / 32767]) end.
    { unfold tone_signal. cbn [data_matrix]. rewrite skipn_map, firstn_map. reflexivity. }
    rewrite E. cbn [map fold_right]. replace (sample_level _ _) with 32767%Z; [lia|].
    unfold sample_level. replace (16384 / 32767 / (16384 / 32767) * 32768) with (IZR 32768) by field. rewrite Ztrunc_IZR. reflexivity.
Qed.
(** The tone against itself. *)
Example C41_example : forall pf calls, exists m, new_manager (N:=RN) 21 (Wideband false) 60 = Ok m /\
  exists m' r, run pf 21 tone_world (after_calls pf 21 m calls) "ref.wav" "deg.wav" = (m', Ok r) /\ vnsim r = 1 /\ fvnsim r = repeat 1 21.
Proof.
  intros pf calls. destruct (C48_wideband_example pf calls) as (m & Hm & m' & r & H). exists m. split; auto. exists m', r. split; auto.
  destruct (C41_identical_inputs pf 21 (Wideband false) 60 m m' calls tone_world "ref.wav" "deg.wav" tone_signal r) as (A & B & _); auto; try lia; try (apply tone_load; auto).
  - cbn. lia.
  - rewrite tone_len. lia.
Qed.
