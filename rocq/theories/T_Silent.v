(** C42 for whole comparisons: a silent degraded recording gets no score above 1. *)
From Coq Require Import Reals Lra.
From Flocq Require Import Core IEEE754.BinarySingleNaN.
From Verif Require Import Base Num F64 M_Audio M_Align M_Nsim M_Selector M_Visqol Spec Spec10 P_F64 Witness P_Silent.
Open Scope R_scope.

(** C42: if a comparison of an audible reference with a silent degraded recording
    returns at all, every patch is reported lost, the similarity is 0 and the score 1. *)
Theorem C42_silent_degraded_result : forall lm pf nb v ws files (m m' : Manager (F64 lm)) calls a b r (rs ds : AudioSignal (F64 lm)) h,
  libm_limits lm -> log10_finite lm -> fft_spreads_nan lm -> new_manager nb v ws = Ok m ->
  load_as_mono (files a) = Ok rs -> load_as_mono (files b) = Ok ds ->
  audible (data_matrix rs) -> Forall (fun x : f64 => is_finite x = true /\ B2R x = 0) (data_matrix ds) ->
  (1 <= h)%Z -> sample_rate rs = (50 * h)%Z -> (50 * h < 2 ^ 32)%Z -> (sig_len rs <= 2 ^ 34)%Z -> (sig_len ds <= 2 ^ 34)%Z ->
  run pf nb files (after_calls pf nb m calls) a b = (m', Ok r) ->
  (moslqo r : f64) = f64_ofZ 1 /\ is_finite (vnsim r : f64) = true /\ B2R (vnsim r) = 0 /\
  Forall (fun p : PatchSim (F64 lm) => similarity p = f64_ofZ 0 /\ Forall (fun x : f64 => x = f64_ofZ 0) (freq_band_means p) /\
     deg_patch_start_time p = f64_ofZ 0 /\ deg_patch_end_time p = f64_ofZ 0) (patch_sims r).
Proof. exact silent_result. Qed.
Print Assumptions C42_silent_degraded_result.

(** C42: if frame 0 lies in the search window of the first patch (fullband: always;
    wideband: if the reference lasts at most 0.6 seconds times the search window),
    the comparison does not return a result. *)
Theorem C42_silent_degraded_no_result : forall lm pf nb v ws files (m : Manager (F64 lm)) calls a b (rs ds : AudioSignal (F64 lm)) h,
  libm_limits lm -> log10_finite lm -> fft_spreads_nan lm -> new_manager nb v ws = Ok m ->
  load_as_mono (files a) = Ok rs -> load_as_mono (files b) = Ok ds ->
  audible (data_matrix rs) -> Forall (fun x : f64 => is_finite x = true /\ B2R x = 0) (data_matrix ds) ->
  (1 <= h)%Z -> sample_rate rs = (50 * h)%Z -> (50 * h < 2 ^ 32)%Z -> (sig_len rs <= 2 ^ 34)%Z -> (sig_len ds <= 2 ^ 34)%Z ->
  (1 <= ws <= 2 ^ 20)%Z -> match v with Wideband _ => (sig_len rs <= 30 * ws * h)%Z | Fullband _ => True end ->
  forall r, snd (run pf nb files (after_calls pf nb m calls) a b) <> Ok r.
Proof. exact silent_never. Qed.
Print Assumptions C42_silent_degraded_no_result.

(** C42: the same for mono files: samples that are not all zero against zeros. *)
Theorem C42_silent_file_no_result : forall lm pf nb v ws files (m : Manager (F64 lm)) calls a b h vs n,
  libm_limits lm -> log10_finite lm -> fft_spreads_nan lm -> new_manager nb v ws = Ok m ->
  (1 <= h)%Z -> (50 * h < 2 ^ 32)%Z ->
  files a = WavOk 1 (50 * h) 16 (map Some vs) -> Forall i16_range vs -> Exists (fun x => x <> 0%Z) vs -> (zlen vs <= 2 ^ 34)%Z ->
  files b = WavOk 1 (50 * h) 16 (map Some (repeat 0%Z n)) -> (Z.of_nat n <= 2 ^ 34)%Z ->
  (1 <= ws <= 2 ^ 20)%Z -> match v with Wideband _ => (zlen vs <= 30 * ws * h)%Z | Fullband _ => True end ->
  forall r, snd (run pf nb files (after_calls pf nb m calls) a b) <> Ok r.
Proof. exact silent_files. Qed.
Print Assumptions C42_silent_file_no_result.

(** A math library with the right limits and a transform through which NaN spreads. *)
Definition lm_sil : Libm := {|
  lm_exp := lm_exp lm_ex; lm_ln := lm_ln lm_ex;
  lm_log10 := fun x => match x with B754_zero _ => B754_infinity true | B754_nan => B754_nan | _ => f64_ofZ 3 end;
  lm_log2 := lm_log2 lm_ex; lm_sin := lm_sin lm_ex; lm_cos := lm_cos lm_ex; lm_sinh := lm_sinh lm_ex; lm_cosh := lm_cosh lm_ex;
  lm_powf := fun x y => match y with B754_infinity false => B754_infinity false | B754_infinity true => B754_zero false
                        | B754_nan => B754_nan | _ => lm_powf lm_ex x y end;
  lm_hypot := lm_hypot lm_ex; lm_atan2 := lm_atan2 lm_ex;
  lm_fft := fun _ l => if existsb (fun z : f64 * f64 => is_nan (fst z) || is_nan (snd z))%bool l
                       then map (fun _ => (B754_nan, B754_nan)) l else l |}.
Example C42_library : libm_limits lm_sil /\ log10_finite lm_sil /\ fft_spreads_nan lm_sil.
Proof.
  assert (E3 : B2R (f64_ofZ 3) = 3) by (apply ofZ_B2R; lia).
  split; [split; [intros s; reflexivity|split; reflexivity]|]. split.
  - intros x F P. assert (E : lm_log10 lm_sil x = f64_ofZ 3) by (destruct x; try discriminate F; try reflexivity; cbn [B2R] in P; lra).
    rewrite E, E3, Rabs_pos_eq by lra. split; [apply ofZ_fin; lia|lra].
  - split; intros inv l H; cbn [lm_sil lm_fft].
    + destruct (existsb _ l) eqn:E.
      * apply Forall_forall. intros z Hz. apply in_map_iff in Hz as (y & <- & _). left; reflexivity.
      * exfalso. destruct H as (z & I & H). rewrite <- Bool.not_true_iff_false in E. apply E. apply existsb_exists. exists z. split; auto.
        apply Bool.orb_true_intro. exact H.
    + destruct (existsb _ l).
      * apply Forall_forall. intros z Hz. apply in_map_iff in Hz as (y & <- & _). reflexivity.
      * eapply Forall_impl; [|exact H]. intros z [A _]. exact A.
Qed.

(** Files meeting the hypotheses; with search window 0 the comparison returns, with the
    score 1 and two lost patches. *)
Definition sil_vs : list Z := map (fun k => (Z.of_nat k * 7919) mod 20011 - 10000)%Z (seq 0 56).
Definition sil_files (path : string) : wav :=
  if String.eqb path "ref.wav" then WavOk 1 50 16 (map Some sil_vs) else WavOk 1 50 16 (map Some (repeat 0%Z 27)).
Definition sil_svr : SvrModel (F64 lm_sil) := {| svr_features := 1; svr_value := fun l => hd_error l |}.
Definition sil_manager (ws : Z) : Manager (F64 lm_sil) :=
  match new_manager 1 (Fullband (Some sil_svr)) ws with
  | Ok m => m
  | _ => {| mg_search_window := 0; mg_creator := M_Patch.VadPatchCreator 0; mg_mapper := SpeechMapper false;
            mg_filterbank := M_Spectro.new_filterbank (N:=F64 lm_sil) 0 (f64_ofZ 0) |}
  end.
Definition sil_summary (r : res (SimilarityResult (F64 lm_sil))) : option nat :=
  match r with Ok r => Some (List.length (patch_sims r)) | _ => None end.
Lemma sil_run : sil_summary (snd (run Debug 1 sil_files (sil_manager 0) "ref.wav" "deg.wav")) = Some 2%nat.
Proof. vm_cast_no_check (@eq_refl (option nat) (Some 2%nat)). Qed.
Lemma sil_some (x : Manager (F64 lm_sil) * res (SimilarityResult (F64 lm_sil))) n : sil_summary (snd x) = Some n ->
  exists m' r, x = (m', Ok r) /\ List.length (patch_sims r) = n.
Proof. destruct x as [m' [r| |]]; cbn [snd sil_summary]; intros H; try discriminate. injection H as H. eauto. Qed.
Example C42_run_example :
  Forall i16_range sil_vs /\ Exists (fun x => x <> 0%Z) sil_vs /\
  (forall ws, new_manager 1 (Fullband (Some sil_svr)) ws = Ok (sil_manager ws)) /\
  sil_files "ref.wav" = WavOk 1 (50 * 1) 16 (map Some sil_vs) /\ sil_files "deg.wav" = WavOk 1 (50 * 1) 16 (map Some (repeat 0%Z 27)) /\
  (exists m' r, run Debug 1 sil_files (sil_manager 0) "ref.wav" "deg.wav" = (m', Ok r) /\ List.length (patch_sims r) = 2%nat) /\
  (forall r, snd (run Debug 1 sil_files (sil_manager 60) "ref.wav" "deg.wav") <> Ok r).
Proof.
  assert (HI : Forall i16_range sil_vs).
  { apply Forall_forall. intros x Hx. apply in_map_iff in Hx as (k & <- & _). unfold i16_range.
    pose proof (Z.mod_pos_bound (Z.of_nat k * 7919) 20011 ltac:(lia)). lia. }
  assert (HE : Exists (fun x => x <> 0%Z) sil_vs) by (apply Exists_exists; exists (-10000)%Z; split; [left; reflexivity|lia]).
  split; [exact HI|]. split; [exact HE|]. split; [reflexivity|]. split; [reflexivity|]. split; [reflexivity|]. split; [exact (sil_some _ _ sil_run)|].
  destruct C42_library as (A & B & C).
  exact (C42_silent_file_no_result lm_sil Debug 1 (Fullband (Some sil_svr)) 60 sil_files (sil_manager 60) [] "ref.wav" "deg.wav" 1 sil_vs 27 A B C
    eq_refl ltac:(lia) ltac:(lia) eq_refl HI HE ltac:(cbn; lia) eq_refl ltac:(cbn; lia) ltac:(lia) I).
Qed.
