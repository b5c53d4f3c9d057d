(** Model of visqol.rs, the quality mappers, similarity_result.rs and
    visqol_manager.rs. *)
From Verif Require Import Base Num Mat M_Audio M_Align M_Spectro M_Patch M_Nsim M_Selector.

Section Visqol.
Context {N : NumOps}.
Open Scope num_scope.
Notation T := (num N).

(** ** Mappers *)

(** speech_similarity_to_quality_mapper.rs:20-41 *)
Definition FIT_PARAMETER_A : T := nlit N 11559455 7.
Definition FIT_PARAMETER_B : T := nlit N 46851153 7.
Definition FIT_PARAMETER_X0 : T := nlit N 7655232 7.
Definition FIT_SCALE : T := nlit N 12031409 7.

Definition speech_predict_quality (scale_max_to_mos : bool) (v : list T) : T :=
  let nsim_mean := seq_sum v [/] # (zlen v) in
  let mos := exponential_from_fit nsim_mean FIT_PARAMETER_A FIT_PARAMETER_B FIT_PARAMETER_X0 in
  let scale := if scale_max_to_mos then FIT_SCALE else #1 in
  nclamp (mos [*] scale) #1 #5.

(** A loaded SVR model (support_vector_regression_model.rs:6-8, crate ffsvm): the
    number of features and the predicted value for a feature vector ([None] if
    ffsvm reports an error; the value includes the casts through f32). *)
Record SvrModel : Type := { svr_features : Z; svr_value : list T -> option T }.

(** support_vector_regression_model.rs:21-37: an observation with more entries
    than the model has features is out of range. *)
Definition svr_predict (m : SvrModel) (obs : list T) : res T :=
  if svr_features m <? zlen obs then Panic PIndex
  else match svr_value m obs with Some x => Ok x | None => Panic PExpect end.

(** The two implementations of SimilarityToQualityMapper. *)
Inductive Mapper : Type :=
| SpeechMapper (scale_max_to_mos : bool)
| SvrMapper (model : SvrModel).

(** speech_..._mapper.rs:20-41, svr_similarity_to_quality_mapper.rs:19-22 *)
Definition predict_quality (m : Mapper) (v : list T) : res T :=
  match m with
  | SpeechMapper s => Ok (speech_predict_quality s v)
  | SvrMapper model => do x <- svr_predict model v; Ok (nclamp x #1 #5)
  end.

(** ** visqol.rs *)

(** similarity_result.rs:5-21 *)
Record SimilarityResult : Type := {
  moslqo : T;
  vnsim : T;
  fvnsim : list T;
  fstdnsim : list T;
  fvdegenergy : list T;
  res_center_freq_bands : list T;
  patch_sims : list (PatchSim N)
}.

(** Add a vector to an accumulator entry by entry: acc[i] += v[i], v[i] with
    bounds check (visqol.rs:98-100 and 111-113). *)
Fixpoint add_into (acc v : list T) : res (list T) :=
  match acc, v with
  | [], _ => Ok []
  | _ :: _, [] => Panic PIndex
  | a :: acc', x :: v' => do t <- add_into acc' v'; Ok (a [+] x :: t)
  end.

Definition num_bands_of (info : list (PatchSim N)) : res nat :=
  do p <- zget info 0; Ok (List.length (freq_band_means p)).

(** visqol.rs:95-103 *)
Definition calc_per_patch_mean_freq_band_means (info : list (PatchSim N)) : res (list T) :=
  do n <- num_bands_of info;
  do s <- foldM (fun acc p => add_into acc (freq_band_means p)) (repeat #0 n) info;
  Ok (map (fun x => x [/] # (zlen info)) s).

(** visqol.rs:106-116 *)
Definition calc_per_patch_mean_freq_band_degraded_energy (info : list (PatchSim N))
  : res (list T) :=
  do n <- num_bands_of info;
  do s <- foldM (fun acc p => add_into acc (freq_band_deg_energy p)) (repeat #0 n) info;
  Ok (map (fun x => x [/] # (zlen info)) s).

(** visqol.rs:131-133: frames in a patch from its times *)
Definition frame_count (frame_duration : T) (p : PatchSim N) : Z :=
  as_usize (nceil N ((ref_patch_end_time p [-] ref_patch_start_time p) [/] frame_duration)).

(** visqol.rs:136-142: contribution of one patch, band by band *)
Fixpoint add_contribution (pf : profile) (fc : Z) (acc devs means : list T) : res (list T) :=
  match acc with
  | [] => Ok []
  | a :: acc' =>
    match devs, means with
    | dev :: devs', mean :: means' =>
      do f1 <- usub pf fc 1;
      do t <- add_contribution pf fc acc' devs' means';
      Ok (a [+] # f1 [*] dev [*] dev [+] # fc [*] mean [*] mean :: t)
    | _, _ => Panic PIndex
    end
  end.

(** visqol.rs:119-152 *)
Definition calc_per_patch_mean_freq_band_std_devs (pf : profile) (info : list (PatchSim N))
    (frame_duration : T) : res (list T) :=
  do fvn <- calc_per_patch_mean_freq_band_means info;
  do n <- num_bands_of info;
  do st <- foldM (fun (st : list T * Z) p =>
             let '(contribution, total) := st in
             let fc := frame_count frame_duration p in
             do total' <- uadd pf total fc;
             do c' <- add_contribution pf fc contribution (freq_band_stddevs p) (freq_band_means p);
             Ok (c', total'))
           (repeat #0 n, 0%Z) info;
  let '(contribution, total) := st in
  Ok (map (fun cf => let '(c, f) := cf in
             let e := (c [-] f [*] f [*] # total) [/] (# total [-] #1) in
             if e [<] #0 then #0 else nsqrt N e)
          (combine contribution fvn)).

(** visqol.rs:155-161 *)
Definition alter_for_similarity_extremes (vnsim moslqo : T) : T :=
  if vnsim [<] nlit N 15 2 then #1 else moslqo.

(** visqol.rs:164-166 *)
Definition calculate_frame_duration (frame_size : T) (rate : Z) : T := frame_size [/] # rate.

(** visqol.rs:15-87.  Returns the filter bank after the call as well. *)
Definition calculate_similarity (pf : profile) (nb : nat) (rs ds : AudioSignal N)
    (fb : Filterbank N) (window : AnalysisWindow N) (creator : PatchCreator) (mapper : Mapper)
    (search_window : Z) : Filterbank N * res SimilarityResult :=
  let scaled := scale_to_match_sound_pressure_level rs ds in
  let '(fb1, rspec) := build nb fb rs window in
  match rspec with
  | Err e => (fb1, Err e) | Panic p => (fb1, Panic p)
  | Ok rspec =>
  let '(fb2, dspec) := build nb fb1 scaled window in
  match dspec with
  | Err e => (fb2, Err e) | Panic p => (fb2, Panic p)
  | Ok dspec =>
    let frame_duration :=
      calculate_frame_duration (# (win_size window) [*] win_overlap window) (sample_rate rs) in
    let coarse :=
      do rd <- prepare_spectrograms_for_comparison rspec dspec;
      let '(rspec, dspec) := rd in
      do indices <- create_ref_patch_indices pf creator (sp_data rspec) rs window;
      do patches <- create_patches_from_indices (creator_patch_size creator) (sp_data rspec) indices;
      find_most_optimal_deg_patches pf patches indices (sp_data dspec) frame_duration
        (wrap_i32 search_window) in
    match coarse with
    | Err e => (fb2, Err e) | Panic p => (fb2, Panic p)
    | Ok info =>
      let '(fb3, realigned) := finely_align_and_recreate_patches pf nb rs scaled window fb2 info in
      (fb3,
       do info <- realigned;
       do fvnsim <- calc_per_patch_mean_freq_band_means info;
       do fstdnsim <- calc_per_patch_mean_freq_band_std_devs pf info frame_duration;
       do fvdegenergy <- calc_per_patch_mean_freq_band_degraded_energy info;
       do mos <- predict_quality mapper fvnsim;
       do vnsim <- (match nd_mean fvnsim with Some x => Ok x | None => Panic PExpect end);
       Ok {| moslqo := alter_for_similarity_extremes vnsim mos;
             vnsim := vnsim; fvnsim := fvnsim; fstdnsim := fstdnsim;
             fvdegenergy := fvdegenergy;
             res_center_freq_bands := center_freq_bands rspec;
             patch_sims := info |})
    end
  end end.

(** ** visqol_manager.rs *)

(** variant.rs:1-4; the SVR model path is replaced by what is found there
    ([None]: the file is missing or not a model). *)
Inductive Variant : Type :=
| Wideband (use_unscaled_mos_mapping : bool)
| Fullband (model : option SvrModel).

(** visqol_manager.rs:26-32 *)
Record Manager : Type := {
  mg_search_window : Z;
  mg_creator : PatchCreator;
  mg_mapper : Mapper;
  mg_filterbank : Filterbank N
}.

(** visqol_manager.rs:36-68.  support_vector_regression_model.rs:12-19 panics if
    the model cannot be loaded. *)
Definition new_manager (nb : nat) (v : Variant) (window_size : Z) : res Manager :=
  do cm <- (match v with
            | Wideband unscaled =>
              Ok (VadPatchCreator PATCH_SIZE_AUDIO, SpeechMapper (negb unscaled))
            | Fullband (Some m) => Ok (ImagePatchCreator PATCH_SIZE_SPEECH, SvrMapper m)
            | Fullband None => Panic PExpect
            end);
  Ok {| mg_search_window := window_size; mg_creator := fst cm; mg_mapper := snd cm;
        mg_filterbank := new_filterbank nb MINIMUM_FREQ |}.

Definition set_filterbank (m : Manager) (fb : Filterbank N) : Manager :=
  {| mg_search_window := mg_search_window m; mg_creator := mg_creator m;
     mg_mapper := mg_mapper m; mg_filterbank := fb |}.

(** visqol_manager.rs:111-128: the duration check only logs *)
Definition validate_input_audio (rs ds : AudioSignal N) : res unit :=
  if negb (sample_rate rs =? sample_rate ds)
  then Err (DifferentSampleRates (sample_rate rs) (sample_rate ds))
  else Ok tt.

(** visqol_manager.rs:84-108 *)
Definition compute_results (pf : profile) (nb : nat) (m : Manager) (rs ds : AudioSignal N)
  : Manager * res SimilarityResult :=
  match globally_align pf rs ds with
  | Err e => (m, Err e) | Panic p => (m, Panic p)
  | Ok None => (m, Err FailedToAlignSignals)
  | Ok (Some (aligned, _)) =>
    let window := new_window (sample_rate rs) OVERLAP WINDOW_DURATION in
    let '(fb, r) := calculate_similarity pf nb rs aligned (mg_filterbank m) window
                      (mg_creator m) (mg_mapper m) (mg_search_window m) in
    (set_filterbank m fb, r)
  end.

(** visqol_manager.rs:71-82; [files] is the file system as seen through hound *)
Definition run (pf : profile) (nb : nat) (files : string -> wav) (m : Manager)
    (ref_path deg_path : string) : Manager * res SimilarityResult :=
  match load_as_mono (files ref_path) with
  | Err e => (m, Err e) | Panic p => (m, Panic p)
  | Ok rs =>
  match load_as_mono (files deg_path) with
  | Err e => (m, Err e) | Panic p => (m, Panic p)
  | Ok ds =>
  match validate_input_audio rs ds with
  | Err e => (m, Err e) | Panic p => (m, Panic p)
  | Ok _ => compute_results pf nb m rs ds
  end end end.
End Visqol.

Arguments SvrModel N : clear implicits.
Arguments Mapper N : clear implicits.
Arguments Variant N : clear implicits.
Arguments Manager N : clear implicits.
Arguments SimilarityResult N : clear implicits.
