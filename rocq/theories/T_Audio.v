(** C08 - C12, C16, C37, C42: loading, transform sizes, alignment, slices, levels. *)
From Coq Require Import Reals Lra.
From Flocq Require Import Core IEEE754.BinarySingleNaN.
From Verif Require Import Base Num F64 RNum M_Audio M_Align M_Selector Spec P_Audio P_Audio2 P_Win P_Level.
Open Scope R_scope.

Definition i16 (v : Z) : Prop := (-32768 <= v <= 32767)%Z.

(** C08: one sample per frame and the rate of the file, in any arithmetic. *)
Theorem C08_frames : forall N c rate vs n, (1 <= c)%nat -> List.length vs = (n * c)%nat -> Forall i16 vs ->
  exists s : AudioSignal N, load_as_mono (WavOk (Z.of_nat c) rate 16 (map Some vs)) = Ok s /\
    List.length (data_matrix s) = n /\ sample_rate s = rate.
Proof. exact C08_gen. Qed.
Print Assumptions C08_frames.

(** C08: in exact arithmetic sample [i] is the mean over the channels. *)
Theorem C08_mean : forall c rate vs n s i, (1 <= c)%nat -> List.length vs = (n * c)%nat -> Forall i16 vs ->
  load_as_mono (N:=RN) (WavOk (Z.of_nat c) rate 16 (map Some vs)) = Ok s -> (i < n)%nat ->
  nth_error (data_matrix s) i =
  Some (Rsum (map (fun j => IZR (nth (i * c + j) vs 0%Z) / 32767) (seq 0 c)) / INR c).
Proof. exact C08_R. Qed.
Print Assumptions C08_mean.

(** C08: in f64 a mono file gives each value over 32767, rounded once. *)
Theorem C08_mono_exact : forall lm rate vs s, Forall i16 vs ->
  load_as_mono (N:=F64 lm) (WavOk 1 rate 16 (map Some vs)) = Ok s ->
  List.length (data_matrix s) = List.length vs /\
  forall i, (i < List.length vs)%nat -> exists x : f64, nth_error (data_matrix s) i = Some x /\
    is_finite x = true /\ B2R x = fl (IZR (nth i vs 0%Z) / 32767).
Proof. exact C08_mono. Qed.
Print Assumptions C08_mono_exact.

(** C08: in f64, with any number of channels a file can have, every sample is finite
    and lies between -(1 + 2^-14) and 1. *)
Theorem C08_in_range : forall lm c rate vs n s, (1 <= Z.of_nat c <= 65535)%Z ->
  List.length vs = (n * c)%nat -> Forall i16 vs ->
  load_as_mono (N:=F64 lm) (WavOk (Z.of_nat c) rate 16 (map Some vs)) = Ok s ->
  Forall (fun x : f64 => is_finite x = true /\ - (1 + bpow radix2 (-14)) <= B2R x <= 1) (data_matrix s).
Proof. exact C08_range. Qed.
Print Assumptions C08_in_range.

(** C08: an incomplete last frame panics. *)
Theorem C08_ragged_panics : forall N c rate vs, (1 <= c)%nat -> (zlen vs mod Z.of_nat c <> 0)%Z ->
  load_as_mono (N:=N) (WavOk (Z.of_nat c) rate 16 (map Some vs)) = Panic PAssert.
Proof. exact (@load_ragged). Qed.
Print Assumptions C08_ragged_panics.

Example C08_example : Forall i16 [32767; -32768; 5; 7; -1; 0]%Z /\
  match load_as_mono (N:=F64 lm_id) (WavOk 2 48000 16 (map Some [32767; -32768; 5; 7; -1; 0]%Z)) with
  | Ok s => List.length (data_matrix s) = 3%nat /\
            map (fun x => f64_cast (-100000) 100000 (Bmult mode_NE x (f64_ofZ 655360))) (data_matrix s) = [-10; 120; -10]%Z
  | _ => False end.
Proof. split; [repeat constructor; unfold i16; lia|]. vm_compute. auto. Qed.

(** C09: the transform is never shorter than the signal and never longer than the
    next power of two, for every length whose next power of two fits in a word. *)
Theorem C09_between : forall pf n p, (1 <= n)%Z -> is_next_pow2 p n -> (p < 2 ^ 64)%Z ->
  exists r, next_pow_two pf n = Ok r /\ (n <= r <= p)%Z.
Proof. exact npt_next. Qed.
Print Assumptions C09_between.

Theorem C09_exact_on_powers : forall pf m, (0 <= m < 64)%Z -> next_pow_two pf (2 ^ m) = Ok (2 ^ m)%Z.
Proof. exact npt_pow. Qed.
Print Assumptions C09_exact_on_powers.

Theorem C09_exact_to_512 : forall pf n p, (1 <= n <= 512)%Z -> is_next_pow2 p n -> next_pow_two pf n = Ok p.
Proof. exact npt_small. Qed.
Print Assumptions C09_exact_to_512.

(** The documented behaviour is false. *)
Theorem C09_next_power_of_two_refuted : exists n p, (1 <= n)%Z /\ is_next_pow2 p n /\
  forall pf, next_pow_two pf n <> Ok p.
Proof. exact npt_refuted. Qed.
Print Assumptions C09_next_power_of_two_refuted.

Theorem C09_zero : next_pow_two Debug 0 = Panic POverflow /\ next_pow_two Release 0 = Ok 0%Z.
Proof. exact npt_zero. Qed.
Print Assumptions C09_zero.

(** The FFT made for [n] samples has room for all of them and at least 32 points; its
    inverse is scaled by one over its size. *)
Theorem C09_fft_size : forall (N : NumOps) pf n p, (1 <= n)%Z -> is_next_pow2 p n -> (p < 2 ^ 64)%Z ->
  exists m, new_fft (N:=N) pf n = Ok m /\ (Z.max n 32 <= fft_size m <= Z.max p 32)%Z /\
    samples_per_channel m = n /\ inverse_fft_scale m = ndiv N (nofZ N 1) (nofZ N (fft_size m)).
Proof. exact @fft_size_bounds. Qed.
Print Assumptions C09_fft_size.

Example C09_example : is_next_pow2 2048 1025 /\ next_pow_two Release 1025 = Ok 2045%Z.
Proof. split; [exact (next_pow2_log 1025 ltac:(lia))|vm_compute; reflexivity]. Qed.

(** C10: whatever the FFT and the math library return, global alignment only shifts
    the degraded signal, by at most half the reference. *)
Theorem C10_only_shifts : forall lm pf (rs ds al : AudioSignal (F64 lm)) lag,
  globally_align pf rs ds = Ok (Some (al, lag)) ->
  sample_rate al = sample_rate ds /\
  shifted (sample_rate ds) (sig_len rs / 2) (data_matrix ds) (data_matrix al) lag.
Proof. exact (fun lm => C10_shift (N:=F64 lm)). Qed.
Print Assumptions C10_only_shifts.

(** C10: with an empty signal there is no alignment. *)
Theorem C10_empty_reference : forall lm pf (rs ds : AudioSignal (F64 lm)),
  data_matrix rs = [] -> globally_align pf rs ds = Ok None.
Proof. exact (fun lm => C10_empty_ref (N:=F64 lm)). Qed.
Print Assumptions C10_empty_reference.

Theorem C10_empty_degraded : forall lm pf (rs ds : AudioSignal (F64 lm)),
  fft_keeps_length (F64 lm) -> (1 <= sig_len rs <= 2 ^ 62)%Z ->
  data_matrix ds = [] -> globally_align pf rs ds = Ok None.
Proof. exact (fun lm => C10_empty_deg (N:=F64 lm)). Qed.
Print Assumptions C10_empty_degraded.

(** C11: both results have the same length; each is a contiguous part of the input,
    or of the shifted input. *)
Theorem C11_equal_lengths : forall lm pf (rs ds r d : AudioSignal (F64 lm)) lag,
  sample_rate rs = sample_rate ds ->
  align_and_truncate pf rs ds = Ok (Some (r, d, lag)) ->
  zlen (data_matrix r) = zlen (data_matrix d) /\
  sample_rate r = sample_rate rs /\ sample_rate d = sample_rate ds /\
  part_of (data_matrix r) (data_matrix rs) /\
  exists l, shifted (sample_rate ds) (sig_len rs / 2) (data_matrix ds) l lag /\ part_of (data_matrix d) l.
Proof. exact (fun lm => C11_all (N:=F64 lm)). Qed.
Print Assumptions C11_equal_lengths.

(** C12: k samples over the rate, times the rate, cut to an integer, is k or k - 1. *)
Theorem C12_at_most_one_off : forall k rate, (0 <= k <= 2 ^ 31)%Z -> (1 <= rate <= 2 ^ 32)%Z ->
  let n := f64_cast 0 (2 ^ 64 - 1) (Bmult mode_NE (Bdiv mode_NE (f64_ofZ k) (f64_ofZ rate)) (f64_ofZ rate)) in
  n = k \/ n = (k - 1)%Z /\ (1 <= k)%Z.
Proof. exact lag_trunc. Qed.
Print Assumptions C12_at_most_one_off.

(** C12: so the truncation starts at sample k or k - 1 when the lag is k samples. *)
Theorem C12_truncation_point : forall lm pf (rs ds al : AudioSignal (F64 lm)) k,
  globally_align pf rs ds = Ok (Some (al, Bdiv mode_NE (f64_ofZ k) (f64_ofZ (sample_rate ds)) : num (F64 lm))) ->
  sample_rate rs = sample_rate ds -> (1 <= sample_rate ds <= 2 ^ 32)%Z ->
  (1 <= k <= 2 ^ 31)%Z -> (k <= sig_len rs)%Z -> (sig_len rs < sig_len al)%Z ->
  exists k' lag, (k' = k \/ k' = (k - 1)%Z) /\ align_and_truncate pf rs ds = Ok (Some
      (@Build_AudioSignal (F64 lm) (skipn (Z.to_nat k') (data_matrix rs)) (sample_rate rs),
       @Build_AudioSignal (F64 lm) (firstn (Z.to_nat (sig_len rs - k')) (skipn (Z.to_nat k') (data_matrix al))) (sample_rate ds),
       lag)).
Proof. exact C12_align. Qed.
Print Assumptions C12_truncation_point.

(** A math library and a transform that keeps lengths and puts the correlation peak
    at lag 15. *)
Definition lm_lag15 : Libm := {|
  lm_exp := fun _ => f64_ofZ 1; lm_ln := fun _ => f64_ofZ 1; lm_log10 := fun x => x; lm_log2 := fun _ => f64_ofZ 6;
  lm_sin := fun x => x; lm_cos := fun x => x; lm_sinh := fun x => x; lm_cosh := fun x => x;
  lm_powf := fun x _ => x; lm_hypot := fun x _ => x; lm_atan2 := fun x _ => x;
  lm_fft := fun inverse l =>
    if inverse then map (fun i => (if (i =? 15)%nat then f64_ofZ 1 else f64_ofZ 0, f64_ofZ 0)) (seq 0 (List.length l))
    else l |}.
Definition sig40 : AudioSignal (F64 lm_lag15) :=
  @Build_AudioSignal (F64 lm_lag15) (map (fun i => f64_ofZ (Z.of_nat i)) (seq 1 40)) 44100.

(** C12: the round trip is refuted: at 44100 Hz a lag of 15 samples is cut at 14. *)
Theorem C12_round_trip_refuted :
  exists k rate, (1 <= k <= 2 ^ 31)%Z /\ (rate = 44100)%Z /\
    f64_cast 0 (2 ^ 64 - 1) (Bmult mode_NE (Bdiv mode_NE (f64_ofZ k) (f64_ofZ rate)) (f64_ofZ rate)) <> k.
Proof. exact C12_refuted. Qed.
Print Assumptions C12_round_trip_refuted.

Example C12_example :
  match globally_align Release sig40 sig40, align_and_truncate Release sig40 sig40 with
  | Ok (Some (al, lag)), Ok (Some (r, d, _)) =>
      sig_len al = 55%Z /\ f64_cast 0 100000 (Bmult mode_NE lag (f64_ofZ 1000000)) = 340%Z /\
      sig_len r = 26%Z /\ sig_len d = 26%Z
  | _, _ => False end.
Proof. vm_compute. auto. Qed.

(** C16: a slice from time [a] to time [b] starting inside the signal: zeros for the
    negative part of the time range, then the samples, then zeros past the end. *)
Theorem C16_samples : forall lm (s : AudioSignal (F64 lm)) (a b : f64) i j z,
  (0 <= sample_rate s <= 2 ^ 53)%Z -> (sig_len s <= 2 ^ 53)%Z -> is_finite a = true -> is_finite b = true ->
  Rabs (fl (B2R a * IZR (sample_rate s))) < bpow radix2 53 ->
  Rabs (fl (B2R b * IZR (sample_rate s))) < bpow radix2 53 ->
  i = Z.max 0 (sample_at a (sample_rate s)) -> j = Z.max 0 (sample_at b (sample_rate s)) ->
  z = Z.max 0 (- sample_at a (sample_rate s)) -> (i <= j)%Z -> (i <= sig_len s)%Z ->
  exists s' w, slice s a b = Ok s' /\ sample_rate s' = sample_rate s /\
    data_matrix s' = repeat (f64_ofZ 0) (Z.to_nat z) ++ w /\ window_of (f64_ofZ 0) (data_matrix s) i j w.
Proof. exact C16_ok. Qed.
Print Assumptions C16_samples.

Theorem C16_start_past_end_panics : forall lm (s : AudioSignal (F64 lm)) (a b : f64),
  (0 <= sample_rate s <= 2 ^ 53)%Z -> (sig_len s <= 2 ^ 53)%Z -> is_finite a = true -> is_finite b = true ->
  Rabs (fl (B2R a * IZR (sample_rate s))) < bpow radix2 53 ->
  Rabs (fl (B2R b * IZR (sample_rate s))) < bpow radix2 53 ->
  (sig_len s < sample_at a (sample_rate s))%Z -> slice s a b = Panic PIndex.
Proof. exact C16_panic. Qed.
Print Assumptions C16_start_past_end_panics.

Example C16_example :
  match slice (N:=F64 lm_id) (@Build_AudioSignal (F64 lm_id) (map f64_ofZ [1;2;3;4;5]%Z) 2) (f64_lit 15 1) (f64_lit 35 1),
        slice (N:=F64 lm_id) (@Build_AudioSignal (F64 lm_id) (map f64_ofZ [1;2;3;4;5]%Z) 2) (Bopp (f64_ofZ 1)) (f64_ofZ 1) with
  | Ok s, Ok s' => map (f64_cast (-9) 9) (data_matrix s) = [4;5;0;0]%Z /\
                   map (f64_cast (-9) 9) (data_matrix s') = [0;0;1;2]%Z
  | _, _ => False end.
Proof. vm_compute. auto. Qed.

(** C37: in exact arithmetic the matched signal is as loud as the reference. *)
Theorem C37_same_loudness : forall rs ds : AudioSignal RN,
  not_silent (data_matrix rs) -> not_silent (data_matrix ds) ->
  rms (data_matrix (scale_to_match_sound_pressure_level rs ds)) = rms (data_matrix rs).
Proof. exact C37_rms. Qed.
Print Assumptions C37_same_loudness.

(** C37: it is a positive multiple of the degraded signal at the same rate. *)
Theorem C37_positive_multiple : forall rs ds : AudioSignal RN,
  not_silent (data_matrix rs) -> not_silent (data_matrix ds) ->
  exists g, 0 < g /\ scale_to_match_sound_pressure_level rs ds =
    {| data_matrix := map (Rmult g) (data_matrix ds) : list (num RN); sample_rate := sample_rate ds |}.
Proof. exact C37_multiple. Qed.
Print Assumptions C37_positive_multiple.

(** C37: it does not depend on the gain of the degraded recording. *)
Theorem C37_gain_independent : forall (rs : AudioSignal RN) l rate g,
  0 < g -> not_silent (data_matrix rs) -> not_silent l ->
  scale_to_match_sound_pressure_level rs (@Build_AudioSignal RN (map (Rmult g) l) rate) =
  scale_to_match_sound_pressure_level rs (@Build_AudioSignal RN l rate).
Proof. exact C37_gain. Qed.
Print Assumptions C37_gain_independent.

Example C37_example : not_silent [0; 1 / 2] /\ 0 < rms [0; 1 / 2].
Proof. assert (H : not_silent [0; 1 / 2]) by (exists (1 / 2); split; [right; left; reflexivity|lra]). split; [exact H|exact (rms_pos _ H)]. Qed.

(** C42: matching a silent degraded signal to an audible reference makes every
    sample NaN. *)
Theorem C42_silent_degraded : forall lm (rs ds : AudioSignal (F64 lm)),
  libm_limits lm -> log10_finite lm -> audible (data_matrix rs) -> (sig_len rs <= 2 ^ 50)%Z ->
  (sig_len ds <= 2 ^ 50)%Z -> Forall (fun x : f64 => is_finite x = true /\ B2R x = 0) (data_matrix ds) ->
  Forall (fun x : f64 => is_nan x = true) (data_matrix (scale_to_match_sound_pressure_level rs ds)).
Proof. exact C42_nan. Qed.
Print Assumptions C42_silent_degraded.

(** C42: a silent reference silences the degraded signal. *)
Theorem C42_silent_reference : forall lm (rs ds : AudioSignal (F64 lm)),
  libm_limits lm -> log10_finite lm -> audible (data_matrix ds) -> (sig_len ds <= 2 ^ 50)%Z ->
  (1 <= sig_len rs <= 2 ^ 50)%Z -> Forall (fun x : f64 => is_finite x = true /\ B2R x = 0) (data_matrix rs) ->
  Forall (fun x : f64 => is_finite x = true /\ B2R x = 0) (data_matrix (scale_to_match_sound_pressure_level rs ds)).
Proof. exact C42_zero. Qed.
Print Assumptions C42_silent_reference.

(** A math library with the right limits. *)
Definition lm_lim : Libm := {|
  lm_exp := fun _ => f64_ofZ 1; lm_ln := fun _ => f64_ofZ 1;
  lm_log10 := fun x => match x with B754_zero _ => B754_infinity true | _ => f64_ofZ 3 end; lm_log2 := fun _ => f64_ofZ 6;
  lm_sin := fun x => x; lm_cos := fun x => x; lm_sinh := fun x => x; lm_cosh := fun x => x;
  lm_powf := fun _ y => match y with B754_infinity false => B754_infinity false | _ => B754_zero false end;
  lm_hypot := fun x _ => x; lm_atan2 := fun x _ => x; lm_fft := fun _ l => l |}.
Example C42_example : libm_limits lm_lim /\ log10_finite lm_lim /\ audible [f64_ofZ 0; f64_ofZ 1] /\
  Forall (fun x : f64 => is_finite x = true /\ B2R x = 0) [f64_ofZ 0; B754_zero true].
Proof.
  assert (E0 : B2R (f64_ofZ 0) = 0) by (apply P_F64.ofZ_B2R; lia).
  assert (E1 : B2R (f64_ofZ 1) = 1) by (apply P_F64.ofZ_B2R; lia).
  assert (E3 : B2R (f64_ofZ 3) = 3) by (apply P_F64.ofZ_B2R; lia).
  split; [split; [intros s; reflexivity|split; reflexivity]|]. split; [|split].
  - intros x F P. assert (E : lm_log10 lm_lim x = f64_ofZ 3) by (destruct x; try reflexivity; cbn [B2R] in P; lra).
    rewrite E, E3, Rabs_pos_eq by lra. split; [apply P_F64.ofZ_fin; lia|lra].
  - split.
    + repeat apply Forall_cons; try apply Forall_nil; (split; [apply P_F64.ofZ_fin; lia|]); rewrite ?E0, ?E1, Rabs_pos_eq; lra.
    + right. left. rewrite E1, Rabs_pos_eq by lra. change (bpow radix2 (-40)) with (/ 1099511627776). lra.
  - repeat apply Forall_cons; try apply Forall_nil; split; try reflexivity; auto.
Qed.
