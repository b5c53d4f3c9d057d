(** C77 in binary64. *)
From Coq Require Import Reals Lra Lia.
From Flocq Require Import Core IEEE754.BinarySingleNaN.
From Verif Require Import Base Num Mat F64 M_Audio M_Align M_Spectro M_Patch M_Nsim M_Selector M_Visqol Spec Spec2 Spec16 Spec17 Witness T_OrderF P_ProvF.
Open Scope R_scope.

(** In binary64, for signals of at most 2^32 samples at less than 2^32 Hz, if a hop [h] is a
    whole number of samples.  The degraded recording is moved by a whole number of samples,
    the one of the global alignment (C75), and every sample is multiplied by the gain of the
    level matching (C37); the result is [ys].  A patch reported as lost has no similarity.
    Every other patch reports the figures of one of two comparisons.  Either the stretches at
    the reported times were compared, from their own spectrograms.  A stretch starts at the
    sample of its time or one sample earlier, because times are cut to samples after rounding
    (C50).  If the shift of fine alignment delays the degraded stretch, up to two samples
    ([z]) before the reported start are compared too, as silence in the degraded recording.
    Or the patch keeps the result of the search, which compares [fp] frames of the
    spectrograms of the whole recordings, and these frames start at the reported times. *)
Theorem C77_measured_where_reported_f64 : forall lm pf nb v ws (m m' : Manager (F64 lm)) calls files a b (rs ds : AudioSignal (F64 lm)) r,
  new_manager nb v ws = Ok m -> load_as_mono (files a) = Ok rs -> load_as_mono (files b) = Ok ds ->
  (1 <= sample_rate rs < 2 ^ 32)%Z -> (sig_len rs <= 2 ^ 32)%Z -> (sig_len ds <= 2 ^ 32)%Z ->
  let rate := sample_rate rs in
  let W := ((4 * rate + 25) / 50)%Z in
  let h := (W / 4)%Z in
  let fp := match v with Wideband _ => 30%Z | Fullband _ => 20%Z end in
  let silence := f64_ofZ 0 in
  let xs : list f64 := data_matrix rs in
  (W mod 4 = 0)%Z ->
  run pf nb files (after_calls pf nb m calls) a b = (m', Ok r) ->
  exists shift lag gain,
    let M : list f64 := moved silence shift (data_matrix ds) in
    let ys := map (fun y => Bmult mode_NE y gain) M in
    (Z.abs shift <= sig_len rs / 2)%Z /\
    globally_align pf rs ds = Ok (Some (@Build_AudioSignal (F64 lm) M rate, lag)) /\
    scale_to_match_sound_pressure_level rs (@Build_AudioSignal (F64 lm) M rate) = @Build_AudioSignal (F64 lm) ys rate /\
    exists X Y X' Y' : Spectrogram (F64 lm),
      spectrogram_of (N:=F64 lm) nb rate xs X /\ spectrogram_of (N:=F64 lm) nb rate ys Y /\
      prepare_spectrograms_for_comparison X Y = Ok (X', Y') /\
      forall p, In p (patch_sims r) ->
      let rstart := B2R (ref_patch_start_time p : f64) in
      let rend := B2R (ref_patch_end_time p : f64) in
      let dstart := B2R (deg_patch_start_time p : f64) in
      let dend := B2R (deg_patch_end_time p : f64) in
      exists i len, (0 <= i)%Z /\ (0 <= len)%Z /\
        near_sample rate rstart i (/ 256) /\ Rabs ((rend - rstart) * IZR rate - IZR len) <= / 128 /\
        ((deg_patch_start_time p = f64_ofZ 0 /\ deg_patch_end_time p = f64_ofZ 0 /\
          similarity p = f64_ofZ 0 /\ Forall (fun x : f64 => x = f64_ofZ 0) (freq_band_means p)) \/
         exists j q z, (0 <= j)%Z /\ (0 <= z <= 2)%Z /\ (z <= i)%Z /\ (z <= len)%Z /\
           near_sample rate dstart j (/ 256) /\ Rabs ((dend - dstart) * IZR rate - IZR len) <= / 128 /\
           reports p q /\
           (compared (N:=F64 lm) nb rate (stretch silence xs (i - z) len) (repeat silence (Z.to_nat z) ++ stretch silence ys j (len - z)) q \/
            exists c d, i = (c * h)%Z /\ j = (d * h)%Z /\ len = (fp * h)%Z /\ (0 <= c)%Z /\ (0 <= d)%Z /\
              measure_patch_similarity (patch_at (sp_data X') c (Z.to_nat fp)) (patch_at (sp_data Y') d (Z.to_nat fp)) = Ok q)).
Proof. exact C77_f64. Qed.
Print Assumptions C77_measured_where_reported_f64.

(** The run of C71's example: each of its three patches starts at a sample of the reference
    and covers a whole number of samples, both up to rounding. *)
Lemma patches_on_samples lm (svr : SvrModel (F64 lm)) pf nb (m m' : Manager (F64 lm)) files a b (rs ds : AudioSignal (F64 lm)) r :
  new_manager nb (Fullband (Some svr)) 0 = Ok m -> load_as_mono (files a) = Ok rs -> load_as_mono (files b) = Ok ds ->
  sample_rate rs = 100%Z -> sig_len rs = 160%Z -> sig_len ds = 158%Z -> run pf nb files m a b = (m', Ok r) -> List.length (patch_sims r) = 3%nat ->
  exists p q t, patch_sims r = [p; q; t] /\
    Forall (fun x : PatchSim (F64 lm) => exists i len, near_sample 100 (B2R (ref_patch_start_time x : f64)) i (/ 256) /\
      Rabs ((B2R (ref_patch_end_time x : f64) - B2R (ref_patch_start_time x : f64)) * 100 - IZR len) <= / 128) [p; q; t].
Proof.
  intros Hm La Lb Rr L1 L2 E L.
  destruct (C77_measured_where_reported_f64 lm pf nb (Fullband (Some svr)) 0 m m' [] files a b rs ds r Hm La Lb) as (sh & lag & g & _ & _ & _ & X & Y & X' & Y' & _ & _ & _ & P);
    try (rewrite ?Rr, ?L1, ?L2; lia); [exact E|].
  rewrite Rr in P. destruct (patch_sims r) as [|p [|q [|t [|]]]] eqn:Eps; try discriminate L. exists p, q, t. split; [reflexivity|].
  apply Forall_forall. intros x Hx. destruct (P x Hx) as (i & len & _ & _ & A & B & _). exists i, len. auto.
Qed.
Example C77_f64_example : exists m' r p q t,
  run Release 1 w_files (w_manager (Fullband (Some w_svr))) "ref.wav" "deg.wav" = (m', Ok r) /\ patch_sims r = [p; q; t] /\
  Forall (fun x : PatchSim (F64 lm_ex) => exists i len, near_sample 100 (B2R (ref_patch_start_time x : f64)) i (/ 256) /\
    Rabs ((B2R (ref_patch_end_time x : f64) - B2R (ref_patch_start_time x : f64)) * 100 - IZR len) <= / 128) [p; q; t].
Proof.
  destruct (w_summary_some _ _ w_run_fullband) as (m' & r & E & HL). assert (L : List.length (patch_sims r) = 3%nat) by exact (eq_sym (f_equal snd HL)). clear HL.
  destruct w_load_ref as (rs & La & Rr & L1). destruct w_load_deg as (ds & Lb & _ & L2).
  assert (M : new_manager 1 (Fullband (Some w_svr)) 0 = Ok (w_manager (Fullband (Some w_svr)))) by (unfold w_manager, new_manager; cbn [bind]; reflexivity).
  destruct (patches_on_samples lm_ex w_svr Release 1 _ m' w_files _ _ rs ds r M La Lb Rr L1 L2 E L) as (p & q & t & X). exists m', r, p, q, t. split; [exact E|exact X].
Qed.
