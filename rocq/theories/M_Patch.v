(** Model of rms_vad.rs, vad_patch_creator.rs and image_patch_creator.rs. *)
From Verif Require Import Base Num Mat M_Audio.

Section Patch.
Context {N : NumOps}.
Open Scope num_scope.
Notation T := (num N).

(** ** rms_vad.rs (state: the vector of per-chunk results) *)

(** rms_vad.rs:19-27 *)
Definition SILENT_CHUNK_COUNT : Z := 3.
Definition RMS_THRESHOLD : T := #5000.

(** rms_vad.rs:56-62 *)
Definition calc_root_mean_square (chunk : list Z) : T :=
  let square := fold_left (fun acc e => (acc + e * e)%Z) chunk 0%Z in
  nsqrt N (# square [/] # (zlen chunk)).

(** rms_vad.rs:31-39: the updated result vector *)
Definition process_chunk (results : list T) (chunk : list Z) : list T :=
  let rms := calc_root_mean_square chunk in
  results ++ [if rms [<] RMS_THRESHOLD then #0 else #1].

(** rms_vad.rs:65-74 *)
Definition check_previous_chunks_for_silence (results : list T) (idx : Z) : res bool :=
  do prev <- mapM (fun j => zget results (idx - j)) (zrange 1 SILENT_CHUNK_COUNT);
  Ok (forallb (fun r => negb (r [==] #1)) prev).

(** rms_vad.rs:42-53 *)
Definition get_vad_results (results : list T) : res (list T) :=
  do rest <- mapM (fun i =>
      do r <- zget results i;
      do s <- check_previous_chunks_for_silence results i;
      Ok (if (r [==] #0) && s then #0 else #1))
    (zrange (SILENT_CHUNK_COUNT - 1) (zlen results));
  Ok (repeat #1 (Z.to_nat (SILENT_CHUNK_COUNT - 1)) ++ rest).

(** ** vad_patch_creator.rs *)

(** vad_patch_creator.rs:104-108: quantise one sample to 16 bits *)
Definition quantize_sample (x : T) : Z :=
  let scaled : T := # (as_i16 (x [*] # (2 ^ 15))) in
  let scaled : T := nmin (nmax (# (- 2 ^ 15)) (#1 [*] # (2 ^ 15 - 1))) scaled in
  as_i16 scaled.

(** vad_patch_creator.rs:102-115: frames of [frame_length] quantised samples are
    passed to the detector when full; [frame] is the frame being filled. *)
Fixpoint vad_loop (frame_length : Z) (frame : list Z) (results : list T) (l : list T)
  : list T :=
  match l with
  | [] => results
  | x :: t =>
    let frame := frame ++ [quantize_sample x] in
    if (zlen frame =? frame_length)%Z
    then vad_loop frame_length [] (process_chunk results frame) t
    else vad_loop frame_length frame results t
  end.

(** vad_patch_creator.rs:91-116 *)
Definition get_voice_activity (pf : profile) (signal : list T)
    (start_sample total_samples frame_length : Z) : res (list T) :=
  do e <- uadd pf start_sample total_samples;
  do patch <- zslice signal start_sample e;
  do _ <- alloc8 frame_length;
  get_vad_results (vad_loop frame_length [] [] patch).

(** itertools chunks(n) *)
Fixpoint chunks (fuel : nat) (n : nat) (l : list T) : list (list T) :=
  match fuel with
  | O => []
  | S f => match l with
           | [] => []
           | _ => firstn n l :: chunks f n (skipn n l)
           end
  end.

(** vad_patch_creator.rs:48-57: the grid position of each chunk is pushed if the
    flags of the chunk sum to at least the threshold 1.0 *)
Fixpoint collect_active (patch_size : Z) (patch_idx : Z) (cs : list (list T)) : list Z :=
  match cs with
  | [] => []
  | c :: t =>
    let rest := collect_active patch_size (patch_idx + patch_size) t in
    if #1 [<=] seq_sum c then patch_idx :: rest else rest
  end.

(** vad_patch_creator.rs:13-60; [spectrum_length] is the number of columns of the
    reference spectrogram.  itertools' chunks panics for size 0. *)
Definition vad_patch_indices (pf : profile) (patch_size : Z) (spectrum_length : Z)
    (ref_signal : AudioSignal N) (window : AnalysisWindow N) : res (list Z) :=
  do norm <- normalize_signal (data_matrix ref_signal);
  let frame_size := hop_size window in
  do patch_sample_length <- umul pf patch_size frame_size;
  do first_patch_idx <- usub pf (patch_size / 2) 1;
  do d <- usub pf spectrum_length first_patch_idx;
  do patch_count <- udiv d patch_size;
  do total_sample_count <- umul pf patch_count patch_sample_length;
  do _ <- alloc8 patch_count;
  do vad <- get_voice_activity pf norm first_patch_idx total_sample_count frame_size;
  Ok (collect_active patch_size first_patch_idx
        (chunks (List.length vad) (Z.to_nat patch_size) vad)).

(** ** image_patch_creator.rs *)

(** image_patch_creator.rs:69-71: (init..max).step_by(patch_size), each minus 1 *)
Definition image_grid (pf : profile) (init max_index patch_size : Z) : res (list Z) :=
  mapM (fun k => usub pf (init + patch_size * k) 1)
       (zrange 0 ((max_index - init + patch_size - 1) / patch_size)).

(** image_patch_creator.rs:47-73.  step_by(0) and the division at line 67 panic
    for patch size 0. *)
Definition image_patch_indices (pf : profile) (patch_size : Z) (spectrum_length : Z)
  : res (list Z) :=
  let init := patch_size / 2 in
  if spectrum_length <? patch_size + init
  then Err (ReferenceSpectrogramTooSmall spectrum_length (patch_size - init))
  else
    let max_index := if init <? spectrum_length - patch_size
                     then spectrum_length - patch_size else init + 1 in
    if patch_size =? 0 then Panic PDivZero
    else image_grid pf init max_index patch_size.

(** image_patch_creator.rs:22-39 and vad_patch_creator.rs:62-78 (identical code) *)
Definition create_patches_from_indices (patch_size : Z) (spectrogram : mat N) (indices : list Z)
  : res (list (mat N)) :=
  mapM (fun s => mslice_cols spectrogram s (s + patch_size)) indices.

(** The two implementations of the PatchCreator trait (patch_creator.rs:9-24). *)
Inductive PatchCreator : Type :=
| VadPatchCreator (patch_size : Z)
| ImagePatchCreator (patch_size : Z).

Definition creator_patch_size (p : PatchCreator) : Z :=
  match p with VadPatchCreator s => s | ImagePatchCreator s => s end.

Definition create_ref_patch_indices (pf : profile) (p : PatchCreator) (spectrogram : mat N)
    (ref_signal : AudioSignal N) (window : AnalysisWindow N) : res (list Z) :=
  let w := Z.of_nat (mcols spectrogram) in
  match p with
  | VadPatchCreator s => vad_patch_indices pf s w ref_signal window
  | ImagePatchCreator s => image_patch_indices pf s w
  end.
End Patch.
