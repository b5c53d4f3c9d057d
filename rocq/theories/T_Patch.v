(** C17, C18, C23, C24, C43: choosing reference patches on the fixed grid and the
    number of matched patches. *)
From Coq Require Import Sorted.
From Verif Require Import Base Num Mat RNum M_Audio M_Spectro M_Patch M_Nsim M_Selector M_Visqol.
From Verif Require Import Spec WitnessZ P_Manager P_Patch P_Compare.
Open Scope Z_scope.

(** C17: with at least 3/2 of a patch of frames the start frames are
    ps/2-1, ps/2-1+ps, ..., n of them, each patch inside the spectrogram. *)
Theorem C17_fixed_grid : forall pf ps w, 2 <= ps -> ps + ps / 2 <= w ->
  exists n, 1 <= n /\
    image_patch_indices pf ps w = Ok (map (fun k => ps / 2 - 1 + ps * k) (zrange 0 n)) /\
    (forall k, 0 <= k < n <-> (k = 0 \/ (0 < k /\ ps / 2 - 1 + ps * k + ps + 2 <= w))) /\
    (forall k, 0 <= k < n -> 0 <= ps / 2 - 1 + ps * k /\ ps / 2 - 1 + ps * k + ps <= w).
Proof. exact C17_grid. Qed.
Print Assumptions C17_fixed_grid.

(** ... and cutting the patches out succeeds; patch k is the ps columns from its start. *)
Theorem C17_patches_cut : forall N pf ps (m : mat N) idx, 2 <= ps -> ps + ps / 2 <= Z.of_nat (mcols m) ->
  image_patch_indices pf ps (Z.of_nat (mcols m)) = Ok idx ->
  exists patches, create_patches_from_indices ps m idx = Ok patches /\
    List.length patches = List.length idx /\
    (forall k s p, nth_error idx k = Some s -> nth_error patches k = Some p ->
       mrows p = mrows m /\ Z.of_nat (mcols p) = ps /\
       forall i j, (i < mrows m)%nat -> (j < mcols p)%nat -> mget p i j = mget m i (Z.to_nat s + j)).
Proof. exact @C17_slices. Qed.
Print Assumptions C17_patches_cut.

Example C17_example : image_patch_indices Debug 20 100 = Ok [9; 29; 49; 69].
Proof. reflexivity. Qed.
Example C17_cut_example :
  let m : mat ZN := mbuild (N:=ZN) 2 9 (fun i j => Z.of_nat (10 * i + j)) in
  exists idx ps, image_patch_indices Debug 4 9 = Ok idx /\ create_patches_from_indices 4 m idx = Ok ps /\
    map mdata ps = [[[1; 2; 3; 4]; [11; 12; 13; 14]]].
Proof. do 2 eexists. repeat split; vm_compute; reflexivity. Qed.

(** C18: exactly the references below 3/2 of a patch are rejected, with the found
    width and patch_size - patch_size/2 as the minimum. *)
Theorem C18_rejects_exactly : forall pf ps w, 0 < ps ->
  (w < ps + ps / 2 <-> exists e, image_patch_indices pf ps w = Err e) /\
  (w < ps + ps / 2 -> image_patch_indices pf ps w = Err (ReferenceSpectrogramTooSmall w (ps - ps / 2))).
Proof. exact C18_iff. Qed.
Print Assumptions C18_rejects_exactly.

(** The reported minimum is not the minimum: widths at or above it are rejected,
    for every patch size. *)
Theorem C18_minimum_refuted : forall pf ps, 2 <= ps ->
  exists w least, least <= w /\ image_patch_indices pf ps w = Err (ReferenceSpectrogramTooSmall w least).
Proof. exact C18_min. Qed.
Print Assumptions C18_minimum_refuted.

(** The last patch is dropped although it fits exactly, or with one frame to spare. *)
Theorem C18_last_patch_dropped : forall pf ps w k, 2 <= ps -> 1 <= k ->
  (let last := ps / 2 - 1 + ps * k in w = last + ps \/ w = last + ps + 1) ->
  exists idx, image_patch_indices pf ps w = Ok idx /\ ~ In (ps / 2 - 1 + ps * k) idx /\
              In (ps / 2 - 1 + ps * (k - 1)) idx.
Proof. exact C18_dropped. Qed.
Print Assumptions C18_last_patch_dropped.

Example C18_example :
  image_patch_indices Release 20 29 = Err (ReferenceSpectrogramTooSmall 29 10) /\
  image_patch_indices Release 20 49 = Ok [9] /\ image_patch_indices Release 20 51 = Ok [9; 29].
Proof. repeat split; reflexivity. Qed.

(** C23: with one reference patch that starts before half a patch, matching panics,
    whatever the degraded spectrogram. *)
Theorem C23_single_patch_panics : forall N pf (p0 : mat N) rp i0 (deg : mat N) fd radius,
  0 <= i0 < Z.of_nat (mcols p0) / 2 -> Z.of_nat (mcols p0) < 2 ^ 62 -> Z.of_nat (mcols deg) < 2 ^ 63 ->
  is_panic (find_most_optimal_deg_patches pf (p0 :: rp) [i0] deg fd radius).
Proof. exact @C23_single. Qed.
Print Assumptions C23_single_patch_panics.

(** ... so a comparison whose reference yields a single start frame panics, *)
Theorem C23_comparison_panics : forall N pf nb (rs ds : AudioSignal N) fb w creator mapper sw i0,
  0 < hop_size w -> 1 <= win_size w <= sig_len rs -> win_size w <= sig_len ds < 2 ^ 62 ->
  0 <= i0 < creator_patch_size creator / 2 -> creator_patch_size creator < 2 ^ 62 ->
  (forall r : mat N, Z.of_nat (mcols r) = 1 + (sig_len rs - win_size w) / hop_size w ->
     create_ref_patch_indices pf creator r rs w = Ok [i0]) ->
  is_panic (snd (calculate_similarity pf nb rs ds fb w creator mapper sw)).
Proof. exact @C23_compare. Qed.
Print Assumptions C23_comparison_panics.

(** ... for instance every comparison on the fixed grid whose reference has
    between 3/2 and 5/2 of a patch of frames. *)
Theorem C23_fixed_grid_panics : forall N pf nb (rs ds : AudioSignal N) fb w ps mapper sw,
  2 <= ps < 2 ^ 62 -> 0 < hop_size w -> 1 <= win_size w <= sig_len rs ->
  win_size w <= sig_len ds < 2 ^ 62 ->
  ps + ps / 2 <= 1 + (sig_len rs - win_size w) / hop_size w <= 2 * ps + ps / 2 ->
  is_panic (snd (calculate_similarity pf nb rs ds fb w (ImagePatchCreator ps) mapper sw)).
Proof. exact @C23_image. Qed.
Print Assumptions C23_fixed_grid_panics.

(** A reference of 150 samples, window and hop 4, patches of 20 frames: 37 frames. *)
Example C23_example :
  let w : AnalysisWindow ZN := @Build_AnalysisWindow ZN 4 1 in
  hop_size w = 4 /\ 20 + 20 / 2 <= 1 + (150 - win_size w) / hop_size w <= 2 * 20 + 20 / 2 /\
  image_patch_indices Debug 20 37 = Ok [9] /\
  find_most_optimal_deg_patches (N:=ZN) Debug [mbuild (N:=ZN) 1 4 (fun _ j => Z.of_nat j)] [1]
    (mbuild (N:=ZN) 1 9 (fun _ j => Z.of_nat j)) 1 0 = Panic POverflow.
Proof. repeat split; vm_compute; try reflexivity; discriminate. Qed.

(** C24: the patches kept are those up to the last start frame s with
    s - patch/2 <= degraded width, when all start frames are at least half a patch; *)
Theorem C24_number_of_patches : forall pf idx n fp, idx <> [] ->
  (forall k s, nth_error idx k = Some s -> fp / 2 <= s) ->
  forall k, calc_max_num_patches pf idx n fp = Ok k <->
    (1 <= k <= zlen idx /\
     (exists s, nth_error idx (Z.to_nat (k - 1)) = Some s /\ s - fp / 2 <= n) /\
     (forall j s, (Z.to_nat k <= j)%nat -> nth_error idx j = Some s -> n < s - fp / 2)).
Proof. exact C24_count. Qed.
Print Assumptions C24_number_of_patches.

(** ... if only the first start frame is below half a patch (as both patch
    creators produce it) the number of results of the matching is the same, and
    at least two; *)
Theorem C24_results_kept : forall N pf (p0 : mat N) rp i0 rest (deg : mat N) fd r out,
  0 <= i0 < Z.of_nat (mcols p0) / 2 -> Z.of_nat (mcols p0) < 2 ^ 62 -> Z.of_nat (mcols deg) < 2 ^ 63 ->
  (forall s, In s rest -> Z.of_nat (mcols p0) / 2 <= s) ->
  find_most_optimal_deg_patches pf (p0 :: rp) (i0 :: rest) deg fd r = Ok out ->
  2 <= zlen out <= zlen (i0 :: rest) /\
  (exists s, nth_error (i0 :: rest) (Z.to_nat (zlen out - 1)) = Some s /\
             s - Z.of_nat (mcols p0) / 2 <= Z.of_nat (mcols deg)) /\
  (forall j s, (List.length out <= j)%nat -> nth_error (i0 :: rest) j = Some s ->
     Z.of_nat (mcols deg) < s - Z.of_nat (mcols p0) / 2).
Proof. exact @C24_kept. Qed.
Print Assumptions C24_results_kept.

(** ... and it panics if no start frame is in reach, *)
Theorem C24_none_panics : forall pf idx n fp, idx <> [] ->
  (forall k s, nth_error idx k = Some s -> fp / 2 <= s) ->
  (forall k s, nth_error idx k = Some s -> n < s - fp / 2) ->
  is_panic (calc_max_num_patches pf idx n fp).
Proof. exact C24_none. Qed.
Print Assumptions C24_none_panics.

(** ... or none but the first, which is below half a patch. *)
Theorem C24_first_low_panics : forall pf i0 rest n fp, 0 <= i0 < fp / 2 -> fp < 2 ^ 62 -> n < 2 ^ 63 ->
  (forall s, In s rest -> fp / 2 <= s /\ n < s - fp / 2) ->
  is_panic (calc_max_num_patches pf (i0 :: rest) n fp).
Proof. exact calc_first_low. Qed.
Print Assumptions C24_first_low_panics.

(** No comparison reports SignalsTooDifferent (see also C49). *)
Theorem C24_never_too_different : forall N pf nb (rs ds : AudioSignal N) fb w creator mapper sw,
  snd (calculate_similarity pf nb rs ds fb w creator mapper sw) <> Err SignalsTooDifferent.
Proof. exact @C24_never. Qed.
Print Assumptions C24_never_too_different.

Definition z_patch (k : Z) : mat ZN := mbuild (N:=ZN) 1 4 (fun _ j => k + Z.of_nat j).
Definition z_deg (n : nat) : mat ZN := mbuild (N:=ZN) 1 n (fun _ j => Z.of_nat j).
Example C24_example :
  (exists out, find_most_optimal_deg_patches (N:=ZN) Debug [z_patch 1; z_patch 5; z_patch 9] [1; 5; 9] (z_deg 8) 1 1 = Ok out
     /\ zlen out = 3) /\
  (exists out, find_most_optimal_deg_patches (N:=ZN) Debug [z_patch 1; z_patch 5; z_patch 9] [1; 5; 9] (z_deg 6) 1 1 = Ok out
     /\ zlen out = 2) /\
  calc_max_num_patches Debug [2; 6; 10] 1 4 = Ok 1 /\
  calc_max_num_patches Debug [4; 6] 1 4 = Panic POverflow.
Proof.
  split; [|split]; [| |repeat split; vm_compute; reflexivity];
  (eexists; split; vm_compute; reflexivity).
Qed.

(** C43: if a start frame minus the search range exceeds the degraded width,
    matching panics. *)
Theorem C43_short_degraded_panics : forall N pf (rp : list (mat N)) idx (deg : mat N) fd radius p0 k r,
  zget rp 0 = Ok p0 -> Z.of_nat (mcols p0) < 2 ^ 31 ->
  let sw := radius * Z.of_nat (mcols p0) in
  0 <= radius -> nth_error idx k = Some r -> (k < List.length rp)%nat ->
  0 <= r -> r + sw < 2 ^ 31 -> Z.of_nat (mcols deg) < r - sw ->
  is_panic (find_most_optimal_deg_patches pf rp idx deg fd radius).
Proof. exact @C43_short. Qed.
Print Assumptions C43_short_degraded_panics.

(** Two patches would be kept, the third makes it panic. *)
Example C43_example :
  calc_max_num_patches Release [1; 5; 13] 8 4 = Ok 2 /\
  find_most_optimal_deg_patches (N:=ZN) Release [z_patch 1; z_patch 5; z_patch 13] [1; 5; 13] (z_deg 8) 1 1 = Panic PIndex.
Proof. split; vm_compute; reflexivity. Qed.
