(** C77: what every reported similarity was measured on. *)
From Coq Require Import Reals Lra Lia.
From Verif Require Import Base Num Mat RNum M_Audio M_Align M_Spectro M_Patch M_Nsim M_Selector M_Visqol Spec Spec2 Spec16 Spec17 T_Same T_Order P_Prov.
Open Scope R_scope.

(** In exact arithmetic, with the window [W] and patches of [fp] quarter windows as in
    C71.  The degraded recording is moved by the whole number of samples that the global
    alignment finds (C75), at most half of the reference's length, and multiplied by a gain that gives it the loudness of the
    reference ([ys]).  A patch reported as lost has no similarity.  Every other patch
    reports stretches of the reference and of [ys] of the same number of samples, and its
    similarity, band means, deviations and energies are those of one of two comparisons.
    Either exactly these two stretches were compared, from their own spectrograms.  Or the
    patch keeps the result of the search, which compares [fp] frames of the spectrograms of
    the whole recordings, read as silence past the end, and the stretches start where these
    frames start.  If a quarter window is a whole number of samples, the times are exact;
    if not, a stretch starts at the last sample that is not after its time. *)
Theorem C77_measured_where_reported : forall pf nb v ws (m m' : Manager RN) calls files a b (rs ds : AudioSignal RN) r,
  new_manager nb v ws = Ok m -> load_as_mono (files a) = Ok rs -> load_as_mono (files b) = Ok ds ->
  (1 <= sample_rate rs < 2 ^ 32)%Z -> (sig_len rs <= 2 ^ 32)%Z -> (sig_len ds <= 2 ^ 32)%Z ->
  let rate := sample_rate rs in
  let W := ((4 * rate + 25) / 50)%Z in
  let fp := match v with Wideband _ => 30%Z | Fullband _ => 20%Z end in
  let xs : list R := data_matrix rs in
  (fp * W mod 4 = 0)%Z ->
  run pf nb files (after_calls pf nb m calls) a b = (m', Ok r) ->
  exists shift gain,
    let M : list R := moved 0 shift (data_matrix ds) in
    let ys := map (Rmult gain) M in
    (Z.abs shift <= sig_len rs / 2)%Z /\
    globally_align pf rs ds = Ok (Some (@Build_AudioSignal RN M rate, IZR shift / IZR rate)) /\
    (not_silent xs -> not_silent M -> 0 < gain /\ rms ys = rms xs) /\
    exists X Y X' Y' : Spectrogram RN,
      spectrogram_of (N:=RN) nb rate xs X /\ spectrogram_of (N:=RN) nb rate ys Y /\
      prepare_spectrograms_for_comparison X Y = Ok (X', Y') /\
      forall p, In p (patch_sims r) ->
      exists i len, (0 <= i)%Z /\ (0 <= len)%Z /\
        on_sample rate (ref_patch_start_time p) i /\
        ((W mod 4 = 0)%Z -> ref_patch_start_time p = IZR i / IZR rate) /\
        ref_patch_end_time p = ref_patch_start_time p + IZR len / IZR rate /\
        ((deg_patch_start_time p = 0 /\ deg_patch_end_time p = 0 /\
          similarity p = 0 /\ Forall (fun x : R => x = 0) (freq_band_means p)) \/
         exists j q, (0 <= j)%Z /\
           on_sample rate (deg_patch_start_time p) j /\
           ((W mod 4 = 0)%Z -> deg_patch_start_time p = IZR j / IZR rate) /\
           deg_patch_end_time p = deg_patch_start_time p + IZR len / IZR rate /\
           reports p q /\
           (compared (N:=RN) nb rate (stretch 0 xs i len) (stretch 0 ys j len) q \/
            exists c d, i = (c * W / 4)%Z /\ j = (d * W / 4)%Z /\ len = (fp * W / 4)%Z /\ (0 <= c)%Z /\ (0 <= d)%Z /\
              measure_patch_similarity (patch_at (sp_data X') c (Z.to_nat fp)) (patch_at (sp_data Y') d (Z.to_nat fp)) = Ok q)).
Proof. exact prov_all. Qed.
Print Assumptions C77_measured_where_reported.

(** The tone of C41 against itself, in fullband mode: its hop is one sample at 50 Hz, so
    the times are exact, and no patch is lost. *)
Example C77_example : forall pf calls, exists m, new_manager (N:=RN) 32 (Fullband (Some flat_model)) 60 = Ok m /\
  exists m' r p rest, run pf 32 tone_world (after_calls pf 32 m calls) "ref.wav" "deg.wav" = (m', Ok r) /\
    patch_sims r = p :: rest /\
    exists i j len q, ref_patch_start_time p = IZR i / 50 /\ ref_patch_end_time p = IZR i / 50 + IZR len / 50 /\
      deg_patch_start_time p = IZR j / 50 /\ deg_patch_end_time p = IZR j / 50 + IZR len / 50 /\
      similarity p = 1 /\ reports p q.
Proof.
  intros pf calls. destruct (C48_fullband_example pf calls) as (m & Hm & m' & r & H). exists m. split; [exact Hm|].
  destruct (C77_measured_where_reported pf 32 (Fullband (Some flat_model)) 60 m m' calls tone_world "ref.wav" "deg.wav" tone_signal tone_signal r Hm) as (sh & g & _ & _ & _ & X & Y & X' & Y' & _ & _ & _ & P);
    try (apply tone_load; auto); try (rewrite tone_len; lia); try (cbn [sample_rate tone_signal]; lia); [exact H|].
  destruct (patch_sims r) as [|p rest] eqn:E.
  { exfalso. destruct (C71_patches_in_order pf 32 (Fullband (Some flat_model)) 60 m m' calls tone_world "ref.wav" "deg.wav" tone_signal tone_signal r Hm) as (_ & _ & L & _);
    try (apply tone_load; auto); try (rewrite tone_len; lia); try (cbn [sample_rate tone_signal]; lia); [exact H|]. rewrite E in L. cbn in L. lia. }
  exists m', r, p, rest. split; [exact H|]. split; [exact E|].
  destruct (P p (or_introl eq_refl)) as (i & len & _ & _ & _ & P1 & P2 & P3). change (sample_rate tone_signal) with 50%Z in *.
  destruct (C41_identical_inputs pf 32 (Fullband (Some flat_model)) 60 m m' calls tone_world "ref.wav" "deg.wav" tone_signal r) as (_ & _ & _ & S & _); try exact H; auto; try lia;
    try (apply tone_load; auto); try (rewrite tone_len; lia); try (cbn [sample_rate tone_signal]; lia).
  rewrite E in S. destruct (S p (or_introl eq_refl)) as (S1 & _).
  destruct P3 as [(_ & _ & S0 & _)|(j & q & _ & _ & J1 & J2 & J3 & _)]; [exfalso; rewrite S1 in S0; exact (R1_neq_R0 S0)|].
  exists i, j, len, q. rewrite P2, P1, J2, J1 by reflexivity. split; [reflexivity|]. split; [reflexivity|]. split; [reflexivity|]. split; [reflexivity|]. split; [exact S1|exact J3].
Qed.
