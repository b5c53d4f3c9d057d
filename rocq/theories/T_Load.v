(** C56, C57: files with several channels, and comparing signals without the check
    that [run] makes. *)
From Coq Require Import Reals.
From Flocq Require Import Core IEEE754.BinarySingleNaN.
From Verif Require Import Base Num F64 RNum M_Audio M_Visqol Spec Witness P_Load P_LoadT.
Open Scope Z_scope.

(** C56: exchanging the two channels of a stereo file changes nothing that is loaded,
    not even a rounding error. *)
Theorem C56_stereo_order : forall lm rate (l : list (Z * Z)),
  Forall (fun p => -32768 <= fst p <= 32767 /\ -32768 <= snd p <= 32767) l ->
  load_as_mono (N:=F64 lm) (WavOk 2 rate 16 (map Some (flat_map (fun p => [snd p; fst p]) l))) =
  load_as_mono (N:=F64 lm) (WavOk 2 rate 16 (map Some (flat_map (fun p => [fst p; snd p]) l))).
Proof. exact C56_swap_load. Qed.
Print Assumptions C56_stereo_order.

(** C56: a stereo file with two equal channels loads as the mono file, bit for bit ... *)
Theorem C56_dual_mono : forall lm rate (l : list Z), Forall (fun v => -32768 <= v <= 32767) l ->
  load_as_mono (N:=F64 lm) (WavOk 2 rate 16 (map Some (flat_map (fun v => [v; v]) l))) =
  load_as_mono (N:=F64 lm) (WavOk 1 rate 16 (map Some l)).
Proof. exact C56_double_load. Qed.
Print Assumptions C56_dual_mono.

(** ... so the comparison gives the same result, whichever of the two files is given. *)
Theorem C56_dual_mono_run : forall lm pf nb (m : Manager (F64 lm)) files files' r d rate rate' l l',
  Forall (fun v => -32768 <= v <= 32767) l -> Forall (fun v => -32768 <= v <= 32767) l' ->
  files r = WavOk 2 rate 16 (map Some (flat_map (fun v => [v; v]) l)) ->
  files d = WavOk 2 rate' 16 (map Some (flat_map (fun v => [v; v]) l')) ->
  files' r = WavOk 1 rate 16 (map Some l) -> files' d = WavOk 1 rate' 16 (map Some l') ->
  run pf nb files m r d = run pf nb files' m r d.
Proof. exact C56_run. Qed.
Print Assumptions C56_dual_mono_run.

(** C56: with any number of channels each sample is within (c + 2) 2^-52 of the mean of
    its frame, scaled by 32767. *)
Theorem C56_accuracy : forall lm c rate vs n (s : AudioSignal (F64 lm)) i, 1 <= Z.of_nat c <= 65535 ->
  List.length vs = (n * c)%nat -> Forall (fun v => -32768 <= v <= 32767) vs ->
  load_as_mono (N:=F64 lm) (WavOk (Z.of_nat c) rate 16 (map Some vs)) = Ok s -> (i < n)%nat ->
  exists x : f64, nth_error (data_matrix s) i = Some x /\ is_finite x = true /\
    (Rabs (B2R x - Rsum (map (fun j => IZR (nth (i * c + j) vs 0%Z) / 32767) (seq 0 c)) / INR c) <=
     (INR c + 2) * bpow radix2 (-52))%R.
Proof. exact C56_accuracy_all. Qed.
Print Assumptions C56_accuracy.

(** C56: with three channels their order matters, and three equal channels are not the
    mono file. *)
Theorem C56_three_channels_order_refuted : exists a b c, (0 <= a <= 200 /\ 0 <= b <= 200 /\ 0 <= c <= 200) /\
  forall lm rate, load_as_mono (N:=F64 lm) (WavOk 3 rate 16 (map Some [a; b; c])) <>
                  load_as_mono (N:=F64 lm) (WavOk 3 rate 16 (map Some [c; b; a])).
Proof. exact C56_order3. Qed.
Print Assumptions C56_three_channels_order_refuted.

Theorem C56_three_equal_channels_refuted : exists a, 0 <= a <= 200 /\
  forall lm rate, load_as_mono (N:=F64 lm) (WavOk 3 rate 16 (map Some [a; a; a])) <>
                  load_as_mono (N:=F64 lm) (WavOk 1 rate 16 (map Some [a])).
Proof. exact C56_same3. Qed.
Print Assumptions C56_three_equal_channels_refuted.

Example C56_example :
  Forall (fun v => -32768 <= v <= 32767) [32767; -32768; 0; 5] /\
  match load_as_mono (N:=F64 lm_ex) (WavOk 2 100 16 (map Some (flat_map (fun v => [v; v]) [32767; -32768; 0; 5]))) with
  | Ok s => map (fun x => f64_cast (-100000) 100000 (Bmult mode_NE x (f64_ofZ 32767))) (data_matrix s) = [32767; -32768; 0; 5]
  | _ => False end.
Proof. split; [repeat constructor; lia|]. vm_compute. reflexivity. Qed.

(** C57: [run] is: load both files, refuse different rates, compare. *)
Theorem C57_run_checks_then_compares : forall N pf nb (m : Manager N) files r d rs ds,
  load_as_mono (files r) = Ok rs -> load_as_mono (files d) = Ok ds ->
  run pf nb files m r d =
  if sample_rate rs =? sample_rate ds then compute_results pf nb m rs ds
  else (m, Err (DifferentSampleRates (sample_rate rs) (sample_rate ds))).
Proof. exact run_ok_loads. Qed.
Print Assumptions C57_run_checks_then_compares.

(** C57: comparing signals directly never refuses different rates ... *)
Theorem C57_direct_never_refuses : forall N pf nb (m : Manager N) rs ds x y,
  snd (compute_results pf nb m rs ds) <> Err (DifferentSampleRates x y).
Proof. exact @C57_never. Qed.
Print Assumptions C57_direct_never_refuses.

(** ... signals at 100 Hz and 110 Hz are scored, with a similarity below one for equal
    samples, and signals at 100 Hz and 200 Hz panic. *)
Theorem C57_direct_rates_refuted : exists (m : Manager (F64 lm_ex)) (rs ds dp : AudioSignal (F64 lm_ex)) m' r,
  new_manager 1 (Wideband false) 0 = Ok m /\
  data_matrix rs = data_matrix ds /\ sample_rate rs = 100 /\ sample_rate ds = 110 /\
  compute_results Release 1 m rs ds = (m', Ok r) /\ Bltb (vnsim r : f64) (f64_lit 6 1) = true /\
  data_matrix rs = data_matrix dp /\ sample_rate dp = 200 /\
  snd (compute_results Release 1 m rs dp) = Panic PShape.
Proof. exact C57_witness. Qed.
Print Assumptions C57_direct_rates_refuted.
