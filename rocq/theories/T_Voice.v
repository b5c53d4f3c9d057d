(** C72: which stretches of the reference are compared in speech mode. *)
From Coq Require Import Reals Lra Lia Sorting.Sorted.
From Flocq Require Import Core.
From Verif Require Import Base Num Mat RNum M_Audio M_Align M_Spectro M_Patch M_Nsim M_Selector M_Visqol Spec Spec2 Spec3 Spec12 P_Base P_Order P_Total3 P_Voice T_Same.
Open Scope R_scope.

(** C72: a sampling rate of 50 hops a second.  The stretches of 30 hops that may be
    reported start at hop 14, 44, 74, ...; the [k]-th reported patch lies in the [k]-th of the
    selected ones.  A stretch is selected exactly if it fits into the reference and one of
    30 frames is active -- but those frames are counted from sample 14, not from hop 14. *)
Theorem C72_selected_stretches : forall pf nb u ws (m m' : Manager RN) calls files a b (rs ds : AudioSignal RN) h peak r,
  new_manager nb (Wideband u) ws = Ok m -> load_as_mono (files a) = Ok rs -> load_as_mono (files b) = Ok ds ->
  sample_rate rs = (50 * h)%Z -> (1 <= h <= 2 ^ 26)%Z -> (sig_len rs <= 2 ^ 32)%Z -> (sig_len ds <= 2 ^ 32)%Z ->
  is_peak peak (data_matrix rs) ->
  run pf nb files (after_calls pf nb m calls) a b = (m', Ok r) ->
  (47 * h <= sig_len rs)%Z /\
  exists starts, StronglySorted Z.lt starts /\
    (forall x, In x starts <-> exists j, (0 <= j)%Z /\ x = (14 + 30 * j)%Z /\ ((x + 33) * h <= sig_len rs)%Z /\
       exists t, (30 * j <= Z.of_nat t < 30 * j + 30)%Z /\ voiced (data_matrix rs) peak 14 h t) /\
    (2 <= List.length (patch_sims r) <= List.length starts)%nat /\
    (forall k p, nth_error (patch_sims r) k = Some p ->
       IZR (nth k starts 0%Z) / 50 <= ref_patch_start_time p /\ ref_patch_end_time p <= IZR (nth k starts 0%Z + 30) / 50).
Proof. exact voice_all. Qed.
Print Assumptions C72_selected_stretches.

(** C72: so sound between sample 60 h + 14 and hop 74 of an otherwise silent reference is
    never compared: every reported patch, with the three hops its last window
    extends further, covers zeros only. *)
Theorem C72_sound_skipped : forall pf nb u ws (m m' : Manager RN) calls files a b (rs ds : AudioSignal RN) h peak r,
  new_manager nb (Wideband u) ws = Ok m -> load_as_mono (files a) = Ok rs -> load_as_mono (files b) = Ok ds ->
  sample_rate rs = (50 * h)%Z -> (1 <= h <= 2 ^ 26)%Z -> (sig_len rs <= 2 ^ 32)%Z -> (sig_len ds <= 2 ^ 32)%Z ->
  is_peak peak (data_matrix rs) ->
  (forall n, (Z.of_nat n < 60 * h + 14)%Z \/ (74 * h <= Z.of_nat n)%Z -> nth n (data_matrix rs) 0 = 0) ->
  run pf nb files (after_calls pf nb m calls) a b = (m', Ok r) ->
  forall p n, In p (patch_sims r) ->
    ref_patch_start_time p <= INR n / IZR (sample_rate rs) < ref_patch_end_time p + 3 / 50 -> nth n (data_matrix rs) 0 = 0.
Proof. exact gap_all. Qed.
Print Assumptions C72_sound_skipped.

(** A second and a fifth of silence, a quarter of a second at full level, a second of
    silence, at 1000 samples a second. *)
Definition gap_zs : list Z := (repeat 0%Z 1214 ++ repeat 16384%Z 266 ++ repeat 0%Z 1000)%list.
Definition gap_signal : AudioSignal RN := {| data_matrix := map (fun z => IZR z / 32767) gap_zs : list (num RN); sample_rate := 1000 |}.
Definition gap_world (p : string) : wav := WavOk 1 1000 16 (map Some gap_zs).
Lemma gap_elem z : In z gap_zs -> z = 16384%Z \/ z = 0%Z.
Proof. unfold gap_zs. intros H. apply in_app_or in H as [H|H]; [|apply in_app_or in H as [H|H]]; apply repeat_spec in H; auto. Qed.
Lemma gap_load p : load_as_mono (N:=RN) (gap_world p) = Ok gap_signal.
Proof. apply load_mono. apply Forall_forall. intros z Hz. apply gap_elem in Hz. lia. Qed.
Lemma gap_len : sig_len gap_signal = 2480%Z.
Proof. unfold sig_len, zlen. cbn [data_matrix gap_signal]. rewrite map_length. unfold gap_zs. rewrite !app_length, !repeat_length. reflexivity. Qed.
Lemma gap_peak : is_peak (16384 / 32767) (data_matrix gap_signal).
Proof.
  split.
  - apply (in_map (fun z => IZR z / 32767) gap_zs 16384%Z). unfold gap_zs. apply in_or_app. right. apply in_or_app. left. left. reflexivity.
  - apply Forall_forall. intros x Hx. apply in_map_iff in Hx as (z & <- & Hz). apply gap_elem in Hz as [-> | ->]; lra.
Qed.
Lemma gap_zero n : (Z.of_nat n < 60 * 20 + 14)%Z \/ (74 * 20 <= Z.of_nat n)%Z -> nth n (data_matrix gap_signal) 0 = 0.
Proof.
  intros H. change (data_matrix gap_signal) with (map (fun z => IZR z / 32767) gap_zs).
  replace 0 with ((fun z => IZR z / 32767) 0%Z) at 1 by (cbn beta; lra). rewrite (map_nth (fun z => IZR z / 32767)).
  replace (nth n gap_zs 0%Z) with 0%Z; [lra|]. symmetry. unfold gap_zs. destruct H as [H|H].
  - rewrite app_nth1 by (rewrite repeat_length; lia). apply nth_repeat.
  - rewrite app_nth2 by (rewrite repeat_length; lia). rewrite app_nth2 by (rewrite !repeat_length; lia). apply nth_repeat.
Qed.
Lemma map_repeat {A B} (f : A -> B) x n : map f (repeat x n) = repeat (f x) n.
Proof. induction n as [|n IH]; cbn [repeat map]; [|rewrite IH]; reflexivity. Qed.
Lemma gap_loud t : (60 <= t < 73)%nat -> loud_frame (data_matrix gap_signal) (16384 / 32767) 14 20 t.
Proof.
  intros H. unfold loud_frame. change (Z.to_nat 14) with 14%nat. change (Z.to_nat 20) with 20%nat.
  match goal with |- context [map (sample_level ?pk) ?q] => assert (E : q = repeat (16384 / 32767) 20) end.
  { change (data_matrix gap_signal) with (map (fun z => IZR z / 32767) gap_zs). rewrite skipn_map, firstn_map.
    rewrite <- (map_repeat (fun z => IZR z / 32767) 16384%Z 20). f_equal. unfold gap_zs.
    rewrite skipn_app, repeat_length. rewrite skipn_all2 by (rewrite repeat_length; lia). cbn [app].
    assert (SPL : repeat 16384%Z 266 = (repeat 16384%Z (t * 20 - 1200) ++ repeat 16384%Z 20 ++ repeat 16384%Z (1446 - t * 20))%list) by (rewrite <- !repeat_app; f_equal; lia).
    rewrite SPL.
    rewrite <- !app_assoc. rewrite skipn_app, repeat_length. rewrite skipn_all2 by (rewrite repeat_length; lia). cbn [app].
    replace (14 + t * 20 - 1214 - (t * 20 - 1200))%nat with 0%nat by lia. rewrite skipn_O.
    rewrite firstn_app, repeat_length, Nat.sub_diag, firstn_O, app_nil_r. apply firstn_all2. rewrite repeat_length. lia. }
  rewrite E. replace (map _ _) with (repeat 32767%Z 20); [vm_compute; discriminate|].
  rewrite map_repeat. f_equal. unfold sample_level. replace (16384 / 32767 / (16384 / 32767) * 32768) with (IZR 32768) by field. rewrite Ztrunc_IZR. reflexivity.
Qed.

(** C72: it is not so that the active sound of the reference is compared: with this
    recording as reference and degraded signal, the comparison succeeds with at least two
    patches, thirteen frames are at full level, and every patch covers zeros only. *)
Theorem C72_active_sound_compared_refuted : forall pf calls, exists m, new_manager (N:=RN) 21 (Wideband false) 60 = Ok m /\
  load_as_mono (N:=RN) (gap_world "ref.wav") = Ok gap_signal /\
  (forall t, (60 <= t < 73)%nat -> loud_frame (data_matrix gap_signal) (16384 / 32767) 14 20 t) /\
  exists m' r, run pf 21 gap_world (after_calls pf 21 m calls) "ref.wav" "deg.wav" = (m', Ok r) /\
    (2 <= List.length (patch_sims r))%nat /\
    forall p n, In p (patch_sims r) ->
      ref_patch_start_time p <= INR n / 1000 < ref_patch_end_time p + 3 / 50 -> nth n (data_matrix gap_signal) 0 = 0.
Proof.
  intros pf calls. eexists. split; [reflexivity|]. split; [apply gap_load|]. split; [exact gap_loud|].
  match goal with |- context [after_calls pf 21 ?m calls] => set (mm := m) end.
  assert (EH : hop_size (new_window (N:=RN) (50 * 20) OVERLAP WINDOW_DURATION) = 20%Z) by (rewrite hop_R by lia; reflexivity).
  destruct (gap_idx pf 121 gap_signal (new_window (N:=RN) (50 * 20) OVERLAP WINDOW_DURATION) (16384 / 32767) 20 EH) as (idx & V & LI & N1);
    rewrite ?gap_len; try lia; [exact gap_peak|exact gap_zero|apply gap_loud; lia|].
  assert (EX : exists m' r, run pf 21 gap_world (after_calls pf 21 mm calls) "ref.wav" "deg.wav" = (m', Ok r)).
  { apply (C48_wideband_succeeds pf 21 false 60 mm calls gap_world _ _ gap_signal gap_signal idx 20); rewrite ?gap_len; try reflexivity; try lia; try apply gap_load; try exact V. }
  destruct EX as (m' & r & H). exists m', r. split; [exact H|].
  destruct (C72_selected_stretches pf 21 false 60 mm m' calls gap_world "ref.wav" "deg.wav" gap_signal gap_signal 20 (16384 / 32767) r) as (_ & st & _ & _ & [L2 _] & _);
    rewrite ?gap_len; try reflexivity; try lia; try apply gap_load; [exact gap_peak|exact H|].
  split; [exact L2|]. change 1000 with (IZR (sample_rate gap_signal)).
  apply (C72_sound_skipped pf 21 false 60 mm m' calls gap_world "ref.wav" "deg.wav" gap_signal gap_signal 20 (16384 / 32767) r);
    rewrite ?gap_len; try reflexivity; try lia; try apply gap_load; [exact gap_peak|exact gap_zero|exact H].
Qed.
Print Assumptions C72_active_sound_compared_refuted.
