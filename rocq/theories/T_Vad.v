(** C19, C20, C21, C22: voice activity and the patches of a wideband comparison.
    [lm] is an arbitrary math library. *)
From Coq Require Import Sorted.
From Flocq Require Import Core IEEE754.BinarySingleNaN.
From Verif Require Import Base Num Mat F64 M_Audio M_Spectro M_Patch M_Visqol Spec Witness P_Vad P_Compare.
Open Scope Z_scope.

(** C19: one flag per chunk; 0 exactly if the chunk and the two before it are
    below the threshold, else 1. *)
Theorem C19_three_silent_chunks : forall lm chunks, (2 <= List.length chunks)%nat ->
  exists flags, get_vad_results (N:=F64 lm) (fold_left (process_chunk (N:=F64 lm)) chunks []) = Ok flags /\
    List.length flags = List.length chunks /\
    forall t, (t < List.length chunks)%nat ->
      (reported_silent chunks t -> nth_error flags t = Some (f64_ofZ 0)) /\
      (~ reported_silent chunks t -> nth_error flags t = Some (f64_ofZ 1)).
Proof. exact C19_smoothing. Qed.
Print Assumptions C19_three_silent_chunks.

Definition v_loud : list Z := [9000; -9000].
Definition v_soft : list Z := [100; -4000].
Example C19_example :
  let chunks := [v_soft; v_soft; v_soft; v_loud; v_soft; v_soft; v_soft] in
  match get_vad_results (N:=F64 lm_ex) (fold_left (process_chunk (N:=F64 lm_ex)) chunks []) with
  | Ok flags => map (f64_cast 0 9) flags = [1; 1; 0; 1; 1; 1; 0]
  | _ => False
  end /\
  reported_silent chunks 2 /\ ~ reported_silent chunks 4.
Proof.
  split; [vm_compute; reflexivity|]. split.
  - split; [lia|]. intros k Hk. assert (k = 0 \/ k = 1 \/ k = 2)%nat as [->|[->| ->]] by lia;
      (exists v_soft; split; [reflexivity|vm_compute; reflexivity]).
  - intros (_ & H). destruct (H 3%nat ltac:(lia)) as (c & E & B). injection E as <-.
    vm_compute in B. discriminate.
Qed.

(** C20: for 16-bit samples the decision is the exact integer comparison. *)
Theorem C20_silent_iff_integer_test : forall lm results c, Forall i16_range c -> 1 <= zlen c <= 2 ^ 20 ->
  process_chunk (N:=F64 lm) results c = results ++ [f64_ofZ 0] <-> quiet c.
Proof. exact C20_process. Qed.
Print Assumptions C20_silent_iff_integer_test.
Theorem C20_active_iff_integer_test : forall lm results c, Forall i16_range c -> 1 <= zlen c <= 2 ^ 20 ->
  process_chunk (N:=F64 lm) results c = results ++ [f64_ofZ 1] <-> ~ quiet c.
Proof. exact C20_process_loud. Qed.
Print Assumptions C20_active_iff_integer_test.

(** Both sides of the boundary, one unit apart. *)
Example C20_example :
  Forall i16_range [5000; 5000; 5000] /\ ~ quiet [5000; -5000; 5000] /\ quiet [5000; 5000; -4999].
Proof.
  unfold i16_range, quiet. split; [repeat constructor; lia|]. split; vm_compute; congruence.
Qed.

(** C21: the start frames of a wideband reference.  [peak] is its largest sample;
    the activity of frame [t] is computed from the samples divided by [peak]. *)
Theorem C21_active_grid_points : forall lm pf ps (m : mat (F64 lm)) (s : AudioSignal (F64 lm)) win,
  let w := Z.of_nat (mcols m) in
  2 <= ps -> 1 <= hop_size win -> ps <= 2 ^ 16 -> w * hop_size win <= sig_len s -> sig_len s <= 2 ^ 44 ->
  ps / 2 - 1 + ps <= w -> Forall (fun x : f64 => is_nan x = false) (data_matrix s) ->
  exists peak idx, is_largest peak (data_matrix s) /\
    create_ref_patch_indices pf (VadPatchCreator ps) m s win = Ok idx /\
    StronglySorted Z.lt idx /\
    (forall x, In x idx <-> exists j, 0 <= j /\ x = ps / 2 - 1 + ps * j /\ x + ps <= w /\
        exists t, ps * j <= Z.of_nat t < ps * (j + 1) /\
          ~ reported_silent (vad_frames (map (fun v => Bdiv mode_NE v peak) (data_matrix s))
               (ps / 2 - 1) (hop_size win) (Z.to_nat (w - (ps / 2 - 1)))) t).
Proof. exact (fun lm pf ps m s win => C21_indices lm pf ps (Z.of_nat (mcols m)) s win). Qed.
Print Assumptions C21_active_grid_points.

(** The first grid point is always among them. *)
Theorem C21_first_grid_point : forall lm pf ps (m : mat (F64 lm)) (s : AudioSignal (F64 lm)) win idx,
  let w := Z.of_nat (mcols m) in
  2 <= ps -> 1 <= hop_size win -> ps <= 2 ^ 16 -> w * hop_size win <= sig_len s -> sig_len s <= 2 ^ 44 ->
  ps / 2 - 1 + ps <= w -> Forall (fun x : f64 => is_nan x = false) (data_matrix s) ->
  create_ref_patch_indices pf (VadPatchCreator ps) m s win = Ok idx -> In (ps / 2 - 1) idx.
Proof. exact (fun lm pf ps m s win => C21_first lm pf ps (Z.of_nat (mcols m)) s win). Qed.
Print Assumptions C21_first_grid_point.

(** Patches of four frames of one sample; the second of the three patches is silent. *)
Definition v_signal : AudioSignal (F64 lm_ex) :=
  @Build_AudioSignal (F64 lm_ex) (map f64_ofZ [0; 9; 9; 0; 0; 0; 0; 0; 0; 9; -9; 1; 9; 0]) 16000.
Definition v_window : AnalysisWindow (F64 lm_ex) := @Build_AnalysisWindow (F64 lm_ex) 4 (f64_lit 25 2).
Example C21_example :
  create_ref_patch_indices Debug (VadPatchCreator 4) (mbuild (N:=F64 lm_ex) 1 14 (fun _ _ => f64_ofZ 0))
    v_signal v_window = Ok [1; 9] /\
  hop_size v_window = 1 /\ sig_len v_signal = 14 /\
  Forall (fun x : f64 => is_nan x = false) (data_matrix v_signal).
Proof. repeat split; try (vm_compute; reflexivity). repeat constructor. Qed.

(** C22: patch creation for a reference below ps/2-1+ps frames panics; *)
Theorem C22_short_reference_panics : forall lm pf ps (m : mat (F64 lm)) (s : AudioSignal (F64 lm)) win,
  2 <= ps <= 2 ^ 16 -> Z.of_nat (mcols m) < ps / 2 - 1 + ps ->
  is_panic (do idx <- create_ref_patch_indices (N:=F64 lm) pf (VadPatchCreator ps) m s win;
            create_patches_from_indices (N:=F64 lm) ps m idx).
Proof. exact C22_creator. Qed.
Print Assumptions C22_short_reference_panics.

(** ... so the comparison panics, for every degraded signal of at least one window; *)
Theorem C22_comparison_panics : forall lm pf nb (rs ds : AudioSignal (F64 lm)) fb w ps mapper sw,
  2 <= ps <= 2 ^ 16 -> 0 < hop_size w -> win_size w <= sig_len rs -> win_size w <= sig_len ds ->
  1 + (sig_len rs - win_size w) / hop_size w < ps / 2 - 1 + ps ->
  is_panic (snd (calculate_similarity (N:=F64 lm) pf nb rs ds fb w (VadPatchCreator ps) mapper sw)).
Proof. exact C22_compare. Qed.
Print Assumptions C22_comparison_panics.

(** ... and a wideband manager gives no result for it at all. *)
Theorem C22_no_result : forall lm pf nb (m : Manager (F64 lm)) (rs ds : AudioSignal (F64 lm)) ps,
  mg_creator m = VadPatchCreator ps -> 2 <= ps <= 2 ^ 16 ->
  let w := new_window (N:=F64 lm) (sample_rate rs) OVERLAP WINDOW_DURATION in
  0 < hop_size w ->
  sig_len rs < win_size w \/ 1 + (sig_len rs - win_size w) / hop_size w < ps / 2 - 1 + ps ->
  forall r, snd (compute_results (N:=F64 lm) pf nb m rs ds) <> Ok r.
Proof. exact C22_never. Qed.
Print Assumptions C22_no_result.

(** At 16 kHz the window is 1280 and the hop 320 samples: every reference below
    44 frames, that is of less than 15040 samples, is concerned. *)
Example C22_example :
  let w := new_window (N:=F64 lm_ex) 16000 OVERLAP WINDOW_DURATION in
  win_size w = 1280 /\ hop_size w = 320 /\ mg_creator (w_manager (Wideband false)) = VadPatchCreator 30 /\
  1 + (15039 - 1280) / 320 < 30 / 2 - 1 + 30 /\ 1 + (15040 - 1280) / 320 = 30 / 2 - 1 + 30.
Proof. vm_compute. repeat split; reflexivity. Qed.
