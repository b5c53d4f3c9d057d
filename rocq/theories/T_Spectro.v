(** C30 - C33, C40: spectrograms, filters, window sizes. *)
From Coq Require Import Reals Lra.
From Flocq Require Import Core IEEE754.BinarySingleNaN.
From Verif Require Import Base Num Mat F64 RNum M_Audio M_Spectro Spec P_Spectro P_R P_Win P_Bands P_Spectro2.
Open Scope R_scope.

(** C40: the window is the integer nearest to 0.08 * rate = (4 * rate / 50) and the
    hop a quarter of it, for every rate that fits in 32 bits. *)
Theorem C40_window_is_nearest : forall lm rate, (0 <= rate < 2 ^ 32)%Z ->
  let w := new_window (N:=F64 lm) rate OVERLAP WINDOW_DURATION in
  Rabs (IZR (win_size w) - 8 / 100 * IZR rate) < 1 / 2 /\ hop_size w = (win_size w / 4)%Z.
Proof. exact C40_all. Qed.
Print Assumptions C40_window_is_nearest.

Example C40_example : let w := new_window (N:=F64 lm_id) 44117 OVERLAP WINDOW_DURATION in
  win_size w = 3529%Z /\ hop_size w = 882%Z.
Proof. vm_compute. auto. Qed.

(** C30: exactly the signals shorter than the window are rejected, with both numbers. *)
Theorem C30_too_few_samples : forall lm nb (fb : Filterbank (F64 lm)) s w,
  (forall found minimum, snd (build nb fb s w) = Err (TooFewSamples found minimum) ->
     found = sig_len s /\ minimum = win_size w /\ (sig_len s < win_size w)%Z) /\
  ((sig_len s < win_size w)%Z -> snd (build nb fb s w) = Err (TooFewSamples (sig_len s) (win_size w))).
Proof. exact C30_few. Qed.
Print Assumptions C30_too_few_samples.

(** C30: every other signal gives a spectrogram with the expected dimensions, at
    every rate from 44 Hz (the least rate with a hop of one sample). *)
Theorem C30_dimensions : forall lm nb (fb : Filterbank (F64 lm)) s,
  sane_libm lm -> (1 <= nb <= 1000)%nat -> fb_min_freq fb = MINIMUM_FREQ ->
  (44 <= sample_rate s < 2 ^ 32)%Z ->
  let w := new_window (N:=F64 lm) (sample_rate s) OVERLAP WINDOW_DURATION in
  (win_size w <= sig_len s)%Z ->
  exists sp, snd (build nb fb s w) = Ok sp /\
    mat_wf (sp_data sp) /\ mrows (sp_data sp) = nb /\
    Z.of_nat (mcols (sp_data sp)) = (1 + (sig_len s - win_size w) / hop_size w)%Z /\
    List.length (center_freq_bands sp) = nb.
Proof. exact C30_all. Qed.
Print Assumptions C30_dimensions.

(** The same over the reals, for any window. *)
Theorem C30_dimensions_exact : forall nb (fb : Filterbank RN) s w,
  (1 <= win_size w)%Z -> (0 < hop_size w)%Z -> (win_size w <= zlen (data_matrix s))%Z ->
  exists sp, snd (build nb fb s w) = Ok sp /\ mat_wf (sp_data sp) /\ mrows (sp_data sp) = nb /\
    Z.of_nat (mcols (sp_data sp)) = (1 + (zlen (data_matrix s) - win_size w) / hop_size w)%Z /\
    List.length (center_freq_bands sp) = nb.
Proof. exact C30_R. Qed.
Print Assumptions C30_dimensions_exact.

(** Below 44 Hz the hop is zero and the builder divides by it. *)
Theorem C30_low_rate_panics : forall lm nb (fb : Filterbank (F64 lm)) s,
  (0 <= sample_rate s < 44)%Z ->
  let w := new_window (N:=F64 lm) (sample_rate s) OVERLAP WINDOW_DURATION in
  (win_size w <= sig_len s)%Z -> snd (build nb fb s w) = Panic PDivZero.
Proof. exact C30_low. Qed.
Print Assumptions C30_low_rate_panics.

Definition lm_const : Libm := {|
  lm_exp := fun _ => f64_ofZ 1; lm_ln := fun _ => f64_ofZ 1; lm_log10 := fun x => x; lm_log2 := fun x => x;
  lm_sin := fun x => x; lm_cos := fun x => x; lm_sinh := fun x => x; lm_cosh := fun x => x;
  lm_powf := fun x _ => x; lm_hypot := fun x _ => x; lm_atan2 := fun x _ => x; lm_fft := fun _ l => l |}.
Example C30_example : sane_libm lm_const /\
  let s := @Build_AudioSignal (F64 lm_const) (repeat (f64_ofZ 1) 6) 44 in
  let w := new_window (N:=F64 lm_const) (sample_rate s) OVERLAP WINDOW_DURATION in
  (win_size w <= sig_len s)%Z /\
  match snd (build 2 (new_filterbank 2 MINIMUM_FREQ) s w) with
  | Ok sp => mcols (sp_data sp) = 3%nat | _ => False end.
Proof.
  split.
  - split.
    + intros x _. reflexivity.
    + intros x _ _. split; [reflexivity|]. cbn [lm_const lm_ln]. rewrite (P_F64.ofZ_B2R 1) by lia. lra.
  - vm_compute. repeat split; discriminate.
Qed.

(** C31: in f64 every entry of row [b] is the root mean square of the output of one
    fixed cascade of filters, started from zero, on the frame of its column; so a
    column depends on nothing but its frame. *)
Theorem C31_entries : forall lm nb rate, exists rows : nat -> list f64,
  forall (fb fb' : Filterbank (F64 lm)) s w sp b j,
    fb_min_freq fb = MINIMUM_FREQ -> sample_rate s = rate ->
    (1 <= win_size w)%Z -> (0 < hop_size w)%Z ->
    build nb fb s w = (fb', Ok sp) -> (b < nb)%nat -> (j < mcols (sp_data sp))%nat ->
    let y := cascade (N:=F64 lm) (rows b) (frame (N:=F64 lm) (data_matrix s) (win_size w) (hop_size w) j) in
    zlen y = win_size w /\
    mget (sp_data sp) b j =
      Bsqrt mode_NE (Bdiv mode_NE (nd_sum (N:=F64 lm) (map (fun v => Bmult mode_NE v v) y)) (f64_ofZ (win_size w))).
Proof. exact C31_entries_f64. Qed.
Print Assumptions C31_entries.

Theorem C31_not_negative : forall lm nb (fb fb' : Filterbank (F64 lm)) s w sp b j,
  (1 <= win_size w)%Z -> (0 < hop_size w)%Z ->
  build nb fb s w = (fb', Ok sp) -> (b < nb)%nat -> (j < mcols (sp_data sp))%nat ->
  Bltb (mget (sp_data sp) b j) (f64_ofZ 0) = false.
Proof. exact C31_nonneg. Qed.
Print Assumptions C31_not_negative.

(** Two signals that agree on a frame have the same column there, bit for bit. *)
Theorem C31_column_is_local : forall lm nb (f1 f2 : Filterbank (F64 lm)) s1 s2 w f1' f2' sp1 sp2 j1 j2,
  (0 < hop_size w)%Z -> (0 <= win_size w)%Z ->
  sample_rate s1 = sample_rate s2 -> fb_min_freq f1 = fb_min_freq f2 ->
  build nb f1 s1 w = (f1', Ok sp1) -> build nb f2 s2 w = (f2', Ok sp2) ->
  (j1 < mcols (sp_data sp1))%nat -> (j2 < mcols (sp_data sp2))%nat ->
  frame (data_matrix s1) (win_size w) (hop_size w) j1 = frame (data_matrix s2) (win_size w) (hop_size w) j2 ->
  mcol (sp_data sp1) j1 = mcol (sp_data sp2) j2.
Proof. exact (fun lm => C31_local (N:=F64 lm)). Qed.
Print Assumptions C31_column_is_local.

(** C32: in exact arithmetic, for the manager's filter bank. *)
Theorem C32_centre_frequencies : forall nb (fb fb' : Filterbank RN) s w sp upper,
  (1 <= nb)%nat -> 0 <= fb_min_freq fb ->
  upper = Rmin (IZR (if Nat.eqb nb 21 then 8000 else sample_rate s / 2)) (IZR (sample_rate s) / 2) ->
  fb_min_freq fb < upper ->
  build nb fb s w = (fb', Ok sp) ->
  let c := center_freq_bands sp in
  List.length c = nb /\ nth 0 c 0 = fb_min_freq fb /\
  (forall i j, (i < j < nb)%nat -> nth i c 0 < nth j c 0) /\
  (forall i, (i < nb)%nat -> nth i c 0 < upper) /\
  (forall k j, (k < nb)%nat -> (0 < hop_size w)%Z -> (1 <= win_size w)%Z -> (j < mcols (sp_data sp))%nat ->
     let y := cascade (N:=RN) (erb_row (sample_rate s) (nth k c 0))
                (frame (data_matrix s) (win_size w) (hop_size w) j) in
     mget (sp_data sp) k j = R_sqrt.sqrt (Rsum (map (fun v => v * v) y) / IZR (win_size w))).
Proof. exact C32_R. Qed.
Print Assumptions C32_centre_frequencies.

Example C32_example : exists fb' sp,
  let s := @Build_AudioSignal RN (repeat 1 8) 16000 in
  let w := @Build_AnalysisWindow RN 4 (1 / 4) in
  build 21 (new_filterbank 21 (MINIMUM_FREQ (N:=RN))) s w = (fb', Ok sp) /\
  (50 < Rmin (IZR (if Nat.eqb 21 21 then 8000 else sample_rate s / 2)) (IZR (sample_rate s) / 2)).
Proof. exact C32_ex. Qed.

(** C33: one output per input; two pieces with the conditions carried over are the
    same as one piece; an output depends on the inputs up to it. *)
Theorem C33_streaming : forall lm nc dc (x y : list f64) cond,
  List.length (fst (filter_signal (N:=F64 lm) nc dc x cond)) = List.length x /\
  filter_signal (N:=F64 lm) nc dc (x ++ y) cond =
    (fst (filter_signal (N:=F64 lm) nc dc x cond) ++
       fst (filter_signal (N:=F64 lm) nc dc y (snd (filter_signal (N:=F64 lm) nc dc x cond))),
     snd (filter_signal (N:=F64 lm) nc dc y (snd (filter_signal (N:=F64 lm) nc dc x cond)))).
Proof. exact C33_stream. Qed.
Print Assumptions C33_streaming.

Theorem C33_causal : forall lm nc dc (a b : list f64) k cond,
  firstn k a = firstn k b ->
  firstn k (fst (filter_signal (N:=F64 lm) nc dc a cond)) = firstn k (fst (filter_signal (N:=F64 lm) nc dc b cond)).
Proof. exact (fun lm nc dc a b k c => filter_causal (N:=F64 lm) nc dc a b k c). Qed.
Print Assumptions C33_causal.

(** In exact arithmetic the output satisfies the difference equation. *)
Theorem C33_difference_equation : forall n0 n1 n2 d0 d1 d2 x c0 c1 y,
  y = fst (filter_signal (N:=RN) (n0, n1, n2) (d0, d1, d2) x (c0, c1)) ->
  (forall x0, nth_error x 0 = Some x0 -> nth_error y 0 = Some (n0 * x0 + c0)) /\
  (forall x0 x1 y0, nth_error x 0 = Some x0 -> nth_error x 1 = Some x1 -> nth_error y 0 = Some y0 ->
     nth_error y 1 = Some (n0 * x1 + n1 * x0 - d1 * y0 + c1)) /\
  (forall n x0 x1 x2 y0 y1, nth_error x n = Some x0 -> nth_error x (S n) = Some x1 ->
     nth_error x (S (S n)) = Some x2 -> nth_error y n = Some y0 -> nth_error y (S n) = Some y1 ->
     nth_error y (S (S n)) = Some (n0 * x2 + n1 * x1 + n2 * x0 - d1 * y1 - d2 * y0)).
Proof. exact (fun n0 n1 n2 d0 d1 d2 x c0 c1 y => filter_eqn n0 n1 n2 d0 d1 d2 x c0 c1 y). Qed.
Print Assumptions C33_difference_equation.

(** ... and is linear in input and conditions together. *)
Theorem C33_linear : forall nc dc a b (x x' : list R) c0 c1 c0' c1',
  List.length x = List.length x' ->
  let comb u v := map (fun p => a * fst p + b * snd p) (combine u v) in
  fst (filter_signal (N:=RN) nc dc (comb x x') (a * c0 + b * c0', a * c1 + b * c1')) =
  comb (fst (filter_signal (N:=RN) nc dc x (c0, c1))) (fst (filter_signal (N:=RN) nc dc x' (c0', c1'))).
Proof. exact C33_lin. Qed.
Print Assumptions C33_linear.

Example C33_example : exists y0 y1 y2,
  fst (filter_signal (N:=RN) (1, 2, 3) (1, 1/2, 1/4) [1; 0; 1] (0, 0)) = [y0; y1; y2] /\
  y2 = 1 * 1 + 2 * 0 + 3 * 1 - 1/2 * y1 - 1/4 * y0 /\ y2 = 3.
Proof. do 3 eexists. split; [reflexivity|]. cbn [RN nadd nsub nmul]. split; lra. Qed.
