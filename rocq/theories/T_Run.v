(** C05, C06, C07, C39, C49: run as a whole.  All statements hold for every
    arithmetic [N], in particular f64 with any math library. *)
From Flocq Require Import Core IEEE754.BinarySingleNaN.
From Verif Require Import Base Num F64 M_Audio M_Spectro M_Patch M_Nsim M_Visqol Spec Witness P_Run.

(** C05: after any history of calls run returns what the fresh manager returns. *)
Theorem C05_no_memory : forall N pf nb (m : Manager N) calls files a b,
  snd (run pf nb files (after_calls pf nb m calls) a b) = snd (run pf nb files m a b).
Proof. exact @C05_mem. Qed.
Print Assumptions C05_no_memory.

(** The state of a manager does change: after a (failing) call its filter bank
    differs from that of a fresh manager. *)
Example C05_example :
  let m := w_manager (Wideband false) in
  let m1 := after_calls Debug 1 m [(w_files, "short.wav", "short.wav")%string] in
  List.length (List.concat (fb_coeffs (mg_filterbank m))) = 0%nat /\
  List.length (List.concat (fb_coeffs (mg_filterbank m1))) = 10%nat.
Proof. vm_compute. auto. Qed.

(** C06: DifferentSampleRates, with the two rates in order, iff the rates differ. *)
Theorem C06_sample_rates : forall N pf nb files (m : Manager N) a b ra rb x y,
  readable16 (files a) ra -> readable16 (files b) rb ->
  snd (run pf nb files m a b) = Err (DifferentSampleRates x y) <-> (ra <> rb /\ x = ra /\ y = rb).
Proof. exact @C06_rates. Qed.
Print Assumptions C06_sample_rates.

Lemma noise_readable ch r k n : (1 <= ch)%Z -> (ch | Z.of_nat n)%Z ->
  readable16 (WavOk ch r 16 (noise k n)) r.
Proof.
  intros H1 H2. exists ch, (map (fun j => (Z.of_nat j * k) mod 20011 - 10000) (seq 0 n)).
  split; [unfold noise; rewrite map_map; auto|]. split; auto.
  unfold zlen. rewrite map_length, seq_length. auto.
Qed.
Example C06_example : readable16 (w_files "ref.wav") 100 /\ readable16 (w_files "other_rate.wav") 200
  /\ readable16 (w_files "stereo.wav") 100.
Proof.
  repeat split; apply noise_readable; try lia; try (exists 160; reflexivity); exists 80; reflexivity.
Qed.

(** C07: bit depth and opening errors, reference first. *)
Theorem C07_reference_bit_depth : forall N pf nb files (m : Manager N) a b c r bits l,
  files a = WavOk c r bits l -> bits <> 16 ->
  snd (run pf nb files m a b) = Err (InvalidBitsPerSample bits).
Proof. exact @C07_ref_bits. Qed.
Print Assumptions C07_reference_bit_depth.
Theorem C07_reference_unreadable : forall N pf nb files (m : Manager N) a b code,
  files a = WavBad code -> snd (run pf nb files m a b) = Err (WavError code).
Proof. exact @C07_ref_bad. Qed.
Print Assumptions C07_reference_unreadable.
Theorem C07_degraded_bit_depth : forall N pf nb files (m : Manager N) a b ra c r bits l,
  readable16 (files a) ra -> files b = WavOk c r bits l -> bits <> 16 ->
  snd (run pf nb files m a b) = Err (InvalidBitsPerSample bits).
Proof. exact @C07_deg_bits. Qed.
Print Assumptions C07_degraded_bit_depth.
Theorem C07_degraded_unreadable : forall N pf nb files (m : Manager N) a b ra code,
  readable16 (files a) ra -> files b = WavBad code ->
  snd (run pf nb files m a b) = Err (WavError code).
Proof. exact @C07_deg_bad. Qed.
Print Assumptions C07_degraded_unreadable.

(** A 16 bit file that opens but has a sample hound cannot decode (for instance
    a file cut off in the middle of its data): no error value, run panics. *)
Theorem C07_reference_damaged_panics : forall N pf nb files (m : Manager N) a b c r l,
  files a = WavOk c r 16 l -> In None l -> snd (run pf nb files m a b) = Panic PExpect.
Proof. exact @C07_ref_damaged. Qed.
Print Assumptions C07_reference_damaged_panics.
Theorem C07_degraded_damaged_panics : forall N pf nb files (m : Manager N) a b ra c r l,
  readable16 (files a) ra -> files b = WavOk c r 16 l -> In None l ->
  snd (run pf nb files m a b) = Panic PExpect.
Proof. exact @C07_deg_damaged. Qed.
Print Assumptions C07_degraded_damaged_panics.
Example C07_damaged_example :
  let files := fun p => if String.eqb p "cut.wav" then WavOk 1 100 16 [Some 12; Some (-7); None]
                        else w_files p in
  files "cut.wav"%string = WavOk 1 100 16 [Some 12; Some (-7); None] /\
  In None [Some 12; Some (-7); None] /\ files "ref.wav"%string = w_files "ref.wav".
Proof. cbv zeta. cbn [String.eqb Ascii.eqb Bool.eqb]. repeat split. right; right; left; reflexivity. Qed.

Example C07_example :
  (exists c r l, w_files "24bit.wav" = WavOk c r 24 l) /\ w_files "missing.wav" = WavBad 2.
Proof. split; [repeat eexists|reflexivity]. Qed.

(** C39: shapes of a successful result. *)
Theorem C39_result_shape : forall N pf nb files (m m' : Manager N) a b r,
  run pf nb files m a b = (m', Ok r) ->
  List.length (fvnsim r) = nb /\ List.length (fstdnsim r) = nb /\
  List.length (fvdegenergy r) = nb /\ List.length (res_center_freq_bands r) = nb /\
  patch_sims r <> [] /\
  Forall (fun p => List.length (freq_band_means p) = nb /\ List.length (freq_band_stddevs p) = nb /\
                   List.length (freq_band_deg_energy p) = nb) (patch_sims r).
Proof. exact @C39_shape. Qed.
Print Assumptions C39_result_shape.

Example C39_example : exists m' r,
  run Release 1 w_files (w_manager (Fullband (Some w_svr))) "ref.wav" "deg.wav" = (m', Ok r) /\
  List.length (patch_sims r) = 3%nat.
Proof.
  destruct (w_summary_some _ _ w_run_fullband) as (m' & s & E & [= _ _ H]). exists m', s. auto.
Qed.

(** C49: every error value run can return, with the condition that causes it.
    SignalsTooDifferent and FailedToComputeVad are never returned. *)
Theorem C49_error_values : forall N pf nb v w (m : Manager N) calls files a b e,
  new_manager nb v w = Ok m ->
  snd (run pf nb files (after_calls pf nb m calls) a b) = Err e ->
  match e with
  | WavError c => files a = WavBad c \/ files b = WavBad c
  | InvalidBitsPerSample n => n <> 16 /\
      ((exists c r l, files a = WavOk c r n l) \/ (exists c r l, files b = WavOk c r n l))
  | DifferentSampleRates x y => x <> y /\
      (exists c l, files a = WavOk c x 16 l) /\ (exists c l, files b = WavOk c y 16 l)
  | FailedToAlignSignals => True
  | TooFewSamples found needed => found < needed
  | ReferenceSpectrogramTooSmall n needed =>
      (exists model, v = Fullband model) /\ n < 30 /\ needed = 10
  | SignalsTooDifferent | FailedToComputeVad | CsvError _ => False
  end.
Proof. exact @C49_errors. Qed.
Print Assumptions C49_error_values.

(** Four of the error values on concrete files. *)
Example C49_example :
  snd (run Release 1 w_files (w_manager (Wideband true)) "short.wav" "short.wav")
    = Err (TooFewSamples 7 8) /\
  snd (run Release 1 w_files (w_manager (Wideband true)) "empty.wav" "short.wav")
    = Err FailedToAlignSignals /\
  snd (run Release 1 w_files (w_manager (Wideband true)) "ref.wav" "other_rate.wav")
    = Err (DifferentSampleRates 100 200) /\
  snd (run Release 1 (fun _ => WavOk 1 100 16 (noise 7919 60)) (w_manager (Fullband (Some w_svr))) "a" "b")
    = Err (ReferenceSpectrogramTooSmall 27 10).
Proof.
  repeat split; vm_compute; reflexivity.
Qed.
