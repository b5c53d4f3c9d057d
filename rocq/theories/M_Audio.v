(** Model of audio_signal.rs, audio_utils.rs (signal part), math_utils.rs,
    wav_reader.rs, constants.rs. *)
From Verif Require Import Base Num.

Section Audio.
Context {N : NumOps}.
Open Scope num_scope.
Notation T := (num N).

(** visqol-rs/src/constants.rs:1-13 *)
Definition NUM_BANDS_SPEECH : nat := 21.
Definition NUM_BANDS_AUDIO : nat := 32.
Definition DEFAULT_WINDOW_SIZE : Z := 32.
Definition PATCH_SIZE_AUDIO : Z := 30.
Definition PATCH_SIZE_SPEECH : Z := 20.
Definition MINIMUM_FREQ : T := #50.
Definition OVERLAP : T := nlit N 25 2.
Definition WINDOW_DURATION : T := nlit N 8 2.
Definition DURATION_MISMATCH_TOLERANCE : T := #1.

(** visqol-rs/src/audio_signal.rs:4-9 *)
Record AudioSignal : Type := { data_matrix : list T; sample_rate : Z }.

(** audio_signal.rs:23 *)
Definition sig_len (s : AudioSignal) : Z := zlen (data_matrix s).

(** audio_signal.rs:20 *)
Definition get_duration (s : AudioSignal) : T := # (sig_len s) [/] # (sample_rate s).

(** What [hound] reports for a path: it cannot be opened as a wav file, or its
    header and samples.  A sample that cannot be decoded is [None]. *)
Inductive wav : Type :=
| WavBad (code : Z)
| WavOk (channels rate bits : Z) (samples : list (option Z)).

(** visqol-rs/src/wav_reader.rs:6-13 *)
Record WavFile : Type := { num_channels : Z; wav_rate : Z; wav_samples : list Z }.

(** wav_reader.rs:18-39.  Opening errors and a bit depth other than 16 are
    returned; a sample that fails to decode panics (expect at line 30).  Samples
    are read as i32 and cast to i16 (line 32). *)
Definition wav_open (w : wav) : res WavFile :=
  match w with
  | WavBad c => Err (WavError c)
  | WavOk ch rate bits samples =>
    if negb (bits =? 16) then Err (InvalidBitsPerSample bits)
    else do ss <- mapM (fun o => match o with Some z => Ok z | None => Panic PExpect end) samples;
         Ok {| num_channels := ch; wav_rate := rate; wav_samples := map wrap_i16 ss |}
  end.

(** math_utils.rs:24-29 *)
Definition normalize_int16_to_double (l : list Z) : list T :=
  map (fun x => # x [/] # 32767) l.

(** math_utils.rs:32 *)
Definition get_max (l : list T) : res T :=
  match nd_max l with Some m => Ok m | None => Panic PExpect end.

(** math_utils.rs:3-7 *)
Definition normalize_signal (l : list T) : res (list T) :=
  do m <- get_max l; Ok (map (fun x => x [/] m) l).

(** math_utils.rs:9-18 (the fourth shift is by 1 in the source, not by 8) *)
Definition next_pow_two (pf : profile) (input : Z) : res Z :=
  do v0 <- usub pf input 1;
  let v1 := Z.lor v0 (Z.shiftr v0 1) in
  let v2 := Z.lor v1 (Z.shiftr v1 2) in
  let v3 := Z.lor v2 (Z.shiftr v2 4) in
  let v4 := Z.lor v3 (Z.shiftr v3 1) in
  let v5 := Z.lor v4 (Z.shiftr v4 16) in
  uadd pf v5 1.

(** math_utils.rs:21 *)
Definition exponential_from_fit (x a b x0 : T) : T := a [+] nexp N (b [*] (x [-] x0)).

(** audio_utils.rs:64-72: de-interleave into frames of [c] samples.  The assert
    at line 65 fails if the length is not a multiple of [c]; with c = 0,
    is_multiple_of(0) is true only for an empty vector, and then line 66 divides
    by zero. *)
Fixpoint chunk (fuel : nat) (c : nat) (l : list T) : list (list T) :=
  match fuel with
  | O => []
  | S f => match l with
           | [] => []
           | _ => firstn c l :: chunk f c (skipn c l)
           end
  end.

Definition extract_multichannel (c : Z) (l : list T) : res (list (list T)) :=
  if c =? 0 then (match l with [] => Panic PDivZero | _ => Panic PAssert end)
  else if zlen l mod c =? 0 then Ok (chunk (List.length l) (Z.to_nat c) l)
  else Panic PAssert.

(** audio_utils.rs:46: sum over the channels of each frame *)
Definition to_mono_matrix (frames : list (list T)) : list T := map nd_sum frames.

(** audio_utils.rs:49-61; [w] is what the file system and hound give for the path *)
Definition load_as_mono (w : wav) : res AudioSignal :=
  do f <- wav_open w;
  let float := normalize_int16_to_double (wav_samples f) in
  do frames <- extract_multichannel (num_channels f) float;
  let mono := to_mono_matrix frames in
  Ok {| data_matrix := map (fun x => x [/] # (num_channels f)) mono;
        sample_rate := wav_rate f |}.

(** audio_utils.rs:12 *)
Definition SPL_REFERENCE_POINT : T := nlit N 2 5.

(** audio_utils.rs:35-43; powi(2) is one multiplication *)
Definition calculate_sound_pressure_level (s : AudioSignal) : T :=
  let energy := seq_sum (map (fun x => x [*] x) (data_matrix s)) in
  let sound_pressure := nsqrt N (energy [/] # (sig_len s)) in
  #20 [*] nlog10 N (sound_pressure [/] SPL_REFERENCE_POINT).

(** audio_utils.rs:17-32 *)
Definition scale_to_match_sound_pressure_level (reference degraded : AudioSignal)
  : AudioSignal :=
  let ref_spl := calculate_sound_pressure_level reference in
  let deg_spl := calculate_sound_pressure_level degraded in
  let scale_factor := npowf N #10 ((ref_spl [-] deg_spl) [/] #20) in
  {| data_matrix := map (fun x => x [*] scale_factor) (data_matrix degraded);
     sample_rate := sample_rate degraded |}.

(** analysis_window.rs:2-7 *)
Record AnalysisWindow : Type := { win_size : Z; win_overlap : T }.

(** analysis_window.rs:11-16 *)
Definition new_window (rate : Z) (overlap duration : T) : AnalysisWindow :=
  {| win_size := as_usize (nroundZ N (# rate [*] duration)); win_overlap := overlap |}.

(** The hop in samples, (window.size as f64 * window.overlap) as usize:
    gammatone_spectrogram_builder.rs:40 and vad_patch_creator.rs:27 *)
Definition hop_size (w : AnalysisWindow) : Z := as_usize (# (win_size w) [*] win_overlap w).
End Audio.

Arguments AudioSignal N : clear implicits.
Arguments AnalysisWindow N : clear implicits.
