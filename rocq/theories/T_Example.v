(** C74: the example programs of the library and the command line tool agree. *)
From Coq Require Import Reals Lra Lia String.
From Flocq Require Import Core.
From Verif Require Import Base Num RNum M_Audio M_Visqol M_Cli M_Clap M_Example Spec Spec2 Spec3 P_Run P_R P_Example T_Same.
Open Scope Z_scope.

(** The command line
    [visqol --reference_file R --degraded_file D --search_window_radius 32 wideband],
    with R and D the recordings of the examples and the flag of the subcommand as
    given. *)
Definition example_line (unscaled : bool) : Given := {|
  g_subcommand := Some (GivenWideband unscaled); g_batch := None;
  g_reference := Some "./test_data/clean_speech/reference_signal.wav"%string;
  g_degraded := Some "./test_data/clean_speech/degraded_signal.wav"%string;
  g_results := None; g_verbose := false; g_debug := None; g_radius := Some (Some 32) |}.

(** C74: whatever the two files hold, the example program prints the score the tool
    prints with --search_window_radius 32, and fails with the same error or panic. *)
Theorem C74_example_program : forall N (w : World N),
  (forall path s, example_main (N:=N) Release (w_wav w) = ([(path, s)], Ok tt) <->
     path = "./test_data/clean_speech/degraded_signal.wav"%string /\ tool Release w (example_line false) = Ran ([EVersion; EMos s], Ok tt)) /\
  (forall e, example_main (N:=N) Release (w_wav w) = ([], Err e) <-> tool Release w (example_line false) = Ran ([], Err e)) /\
  (forall p, example_main (N:=N) Release (w_wav w) = ([], Panic p) <-> tool Release w (example_line false) = Ran ([], Panic p)).
Proof. exact @example_tool. Qed.
Print Assumptions C74_example_program.

(** C74: the program in the documentation prints what the tool prints with the flag
    --use_unscaled_speech_mos_mapping as well; where the tool reports an error or
    panics, it panics. *)
Theorem C74_documented_program : forall N (w : World N),
  (forall path s, documented_main (N:=N) Release (w_wav w) = ([(path, s)], Ok tt) <->
     path = "./test_data/clean_speech/degraded_signal.wav"%string /\ tool Release w (example_line true) = Ran ([EVersion; EMos s], Ok tt)) /\
  ((exists p, documented_main (N:=N) Release (w_wav w) = ([], Panic p)) <->
     (exists e, tool Release w (example_line true) = Ran ([], Err e)) \/ (exists p, tool Release w (example_line true) = Ran ([], Panic p))) /\
  (forall e, documented_main (N:=N) Release (w_wav w) <> ([], Err e)).
Proof. exact @documented_tool. Qed.
Print Assumptions C74_documented_program.

(** A tone in both files gives a score; without the files there is an error. *)
Definition tone_disk (there : bool) : World RN := {|
  w_wav := fun _ => if there then tone_file else WavBad 2; w_model := fun _ => None; w_csv := fun _ => None; w_writable := fun _ => true |}.
Example C74_example : (exists path s, example_main (N:=RN) Release (w_wav (tone_disk true)) = ([(path, s)], Ok tt)) /\
  (exists e, example_main (N:=RN) Release (w_wav (tone_disk false)) = ([], Err e)) /\
  (exists path s, documented_main (N:=RN) Release (w_wav (tone_disk true)) = ([(path, s)], Ok tt)).
Proof.
  assert (LD : load_as_mono (N:=RN) tone_file = Ok tone_signal) by exact (tone_load "ref.wav" (or_introl eq_refl)).
  assert (S : forall u m, new_manager (N:=RN) 21 (Wideband u) 32 = Ok m -> exists m' r, run Release 21 (fun _ => tone_file) m path_to_reference_file path_to_degraded_file = (m', Ok r)).
  { intros u m Hm.
    apply (C48_wideband_loud_succeeds Release 21 u 32 m [] (fun _ => tone_file) _ _ tone_signal tone_signal 1 (16384 / 32767)%R 30); rewrite ?tone_len; try reflexivity; try lia; auto.
    - split.
      + apply (in_map (fun z => IZR z / 32767)%R tone 16384%Z). left. reflexivity.
      + apply Forall_forall. intros x Hx. apply in_map_iff in Hx as (z & <- & Hz). apply tone_elem in Hz as [-> | ->]; lra.
    - unfold loud_frame.
      match goal with |- context [map (sample_level ?pk) ?q] => assert (E : q = [16384 / 32767]%R) end.
      { unfold tone_signal. cbn [data_matrix]. rewrite skipn_map, firstn_map. reflexivity. }
      rewrite E. cbn [map fold_right]. replace (sample_level _ _) with 32767%Z; [lia|].
      unfold sample_level. replace (16384 / 32767 / (16384 / 32767) * 32768)%R with (IZR 32768) by field. rewrite Ztrunc_IZR. reflexivity. }
  assert (NM : forall u, exists m, new_manager (N:=RN) 21 (Wideband u) 32 = Ok m) by (intros u; eexists; reflexivity).
  split; [|split].
  - unfold example_main. change NUM_BANDS_SPEECH with 21%nat. change DEFAULT_WINDOW_SIZE with 32.
    destruct (NM false) as (m & Hm). rewrite Hm. destruct (S false m Hm) as (m' & r & E).
    change (w_wav (tone_disk true)) with (fun _ : string => tone_file). rewrite E. cbn [snd]. eauto.
  - unfold example_main. change NUM_BANDS_SPEECH with 21%nat. change DEFAULT_WINDOW_SIZE with 32.
    destruct (NM false) as (m & Hm). rewrite Hm. eexists. reflexivity.
  - unfold documented_main. change NUM_BANDS_SPEECH with 21%nat. change DEFAULT_WINDOW_SIZE with 32.
    destruct (NM true) as (m & Hm). rewrite Hm. destruct (S true m Hm) as (m' & r & E).
    change (w_wav (tone_disk true)) with (fun _ : string => tone_file). rewrite E. cbn [snd]. eauto.
Qed.
