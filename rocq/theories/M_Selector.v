(** Model of comparison_patches_selector.rs. *)
From Verif Require Import Base Num Mat M_Audio M_Align M_Spectro M_Patch M_Nsim.

Section Selector.
Context {N : NumOps}.
Open Scope num_scope.
Notation T := (num N).

(** comparison_patches_selector.rs:251-255: the loop, counting down from
    [num_patches].  Reaching zero patches makes the next [num_patches - 1] underflow: a
    panic in debug, an out-of-range index in release. *)
Fixpoint calc_max_loop (pf : profile) (indices : list Z) (n_deg half : Z) (num_patches : nat)
  : res Z :=
  match num_patches with
  | O => match pf with Debug => Panic POverflow | Release => Panic PIndex end
  | S k =>
    do r <- zget indices (Z.of_nat k);
    do d <- usub pf r half;
    if n_deg <? d then calc_max_loop pf indices n_deg half k
    else Ok (Z.of_nat (S k))
  end.

(** comparison_patches_selector.rs:243-258 *)
Definition calc_max_num_patches (pf : profile) (indices : list Z)
    (num_frames_in_deg num_frames_per_patch : Z) : res Z :=
  match indices with
  | [] => Ok 0
  | _ => calc_max_loop pf indices num_frames_in_deg (num_frames_per_patch / 2)
           (List.length indices)
  end.

(** comparison_patches_selector.rs:295-317 *)
Definition build_degraded_patch (m : mat N) (wbegin wend : Z) : res (mat N) :=
  let ncols := Z.of_nat (mcols m) in
  let last_real := Z.min wend ncols in
  do p <- mslice_cols m wbegin last_real;
  if ncols <? wend then
    Ok (mbuild (mrows m) (mcols p + Z.to_nat (wend - ncols))
          (fun i j => if (j <? mcols p)%nat then mget p i j else #0))
  else Ok p.

(** comparison_patches_selector.rs:211-219: best earlier cell, scanning back
    offsets downwards; strict comparison keeps the first (largest offset) of
    equal maxima.  Result: value and offset (-1 if none is found). *)
Definition best_previous (prev : list T) (slide lower : Z) : res (T * Z) :=
  foldM (fun (st : T * Z) back =>
      let '(best, off) := st in
      do v <- zget prev back;
      Ok (if best [<] v then (v, back) else (best, off)))
    (nmin_value N, -1) (rev (zrange lower slide)).

(** comparison_patches_selector.rs:185-237: the body of the while loop for one
    slide offset: the value for the cumulative table and for the backtrace (as
    usize: -1 becomes 2^64 - 1).  [prev] is the table row of the previous patch
    and the first admissible offset for it; [None] for the first patch. *)
Definition dp_cell (sim : T) (prev : option (list T * Z)) (slide : Z) : res (T * Z) :=
  match prev with
  | None => Ok (sim, usize_mod - 1)
  | Some (row, lower) =>
    do bp <- best_previous row slide lower;
    let '(highest, past) := bp in
    let total := sim [+] highest in
    do stay <- zget row slide;
    if total [<] stay then Ok (stay, slide)
    else Ok (total, if past <? 0 then usize_mod + past else past)
  end.

(** comparison_patches_selector.rs:156-240.  [sim_at s] is the similarity of the
    reference patch and the degraded patch at offset [s] (lines 185-188).  The
    loop runs over s from max(0, ref - window) to ref + window and stops at the
    number of columns [ncols]; if it starts beyond [ncols] the first access is
    out of range.  [dp] and [bt] are the tables; the row of [patch_index] is
    rewritten. *)
Definition find_most_optimal_deg_patch (pf : profile) (sim_at : Z -> res T) (ncols : Z)
    (tables : list (list T) * list (list Z)) (indices : list Z) (patch_index : Z)
    (search_window : Z) : res (list (list T) * list (list Z)) :=
  let '(dp, bt) := tables in
  do r <- zget indices patch_index;
  do lo <- i32_op pf (wrap_i32 r - search_window);
  do hi <- i32_op pf (wrap_i32 r + search_window);
  let lo := Z.max 0 lo in
  if hi <? lo then Ok (dp, bt)
  else if ncols <? lo then Panic PIndex
  else
    do prev <- (if 0 <? patch_index then
                  do r' <- zget indices (patch_index - 1);
                  do lower <- i32_op pf (wrap_i32 r' - search_window);
                  do prow <- zget dp (patch_index - 1);
                  Ok (Some (prow, Z.max lower 0))
                else Ok None);
    do drow <- zget dp patch_index;
    do brow <- zget bt patch_index;
    do rows <- foldM (fun (st : list T * list Z) s =>
                  let '(drow, brow) := st in
                  do sim <- sim_at s;
                  do vb <- dp_cell sim prev s;
                  let '(v, b) := vb in
                  do drow' <- zset drow s v;
                  do brow' <- zset brow s b;
                  Ok (drow', brow'))
                (drow, brow) (zrange lo (Z.min (hi + 1) ncols));
    let '(drow, brow) := rows in
    do dp' <- zset dp patch_index drow;
    do bt' <- zset bt patch_index brow;
    Ok (dp', bt').

(** comparison_patches_selector.rs:98-110: offset with the largest cumulative
    similarity in the row of the last patch; the first of equal maxima. *)
Definition best_last_offset (row : list T) (lower upper ncols : Z) : res Z :=
  do st <- foldM (fun (st : T * Z) s =>
              let '(best, off) := st in
              do v <- zget row s;
              Ok (if best [<] v then (v, s) else (best, off)))
            (nmin_value N, 0) (zrange lower (Z.min upper ncols));
  Ok (snd st).

(** Update of the time and loss information of one result, lines 131-147. *)
Definition set_times (p : PatchSim N) (lost : bool) (offset r : Z) (frame_duration patch_duration : T)
  : PatchSim N :=
  let rstart := # r [*] frame_duration in
  let dstart := if lost then #0 else # offset [*] frame_duration in
  {| freq_band_means := if lost then repeat #0 (List.length (freq_band_means p))
                        else freq_band_means p;
     freq_band_stddevs := freq_band_stddevs p;
     freq_band_deg_energy := freq_band_deg_energy p;
     similarity := if lost then #0 else similarity p;
     ref_patch_start_time := rstart;
     ref_patch_end_time := rstart [+] patch_duration;
     deg_patch_start_time := dstart;
     deg_patch_end_time := if lost then #0 else dstart [+] patch_duration |}.

(** comparison_patches_selector.rs:113-151: walk back from patch [k - 1] to patch
    0; the results are accumulated in patch order. *)
Fixpoint backtrace_loop (pf : profile) (ref_patches : list (mat N)) (indices : list Z) (deg : mat N)
    (bt : list (list Z)) (frame_duration patch_duration : T)
    (k : nat) (last_offset : Z) (acc : list (PatchSim N)) : res (list (PatchSim N)) :=
  match k with
  | O => Ok acc
  | S k' =>
    do rp <- zget ref_patches (Z.of_nat k');
    do e <- uadd pf last_offset (Z.of_nat (mcols rp));
    do dpat <- build_degraded_patch deg last_offset e;
    do sim <- measure_patch_similarity rp dpat;
    do brow <- zget bt (Z.of_nat k');
    do prev <- zget brow last_offset;
    do r <- zget indices (Z.of_nat k');
    let p := set_times sim (last_offset =? prev) last_offset r frame_duration patch_duration in
    backtrace_loop pf ref_patches indices deg bt frame_duration patch_duration k' prev (p :: acc)
  end.

(** comparison_patches_selector.rs:23-153 *)
Definition find_most_optimal_deg_patches (pf : profile) (ref_patches : list (mat N))
    (indices : list Z) (deg : mat N) (frame_duration : T) (search_window_radius : Z)
  : res (list (PatchSim N)) :=
  do p0 <- zget ref_patches 0;
  let frames_per_patch := Z.of_nat (mcols p0) in
  let ncols := Z.of_nat (mcols deg) in
  let patch_duration := frame_duration [*] # frames_per_patch in
  do search_window <- i32_op pf (search_window_radius * wrap_i32 frames_per_patch);
  do num_patches <- calc_max_num_patches pf indices ncols frames_per_patch;
  if num_patches =? 0 then Err SignalsTooDifferent
  else
    let zero_dp := repeat (repeat #0 (mcols deg)) (List.length indices) in
    let zero_bt := repeat (repeat 0%Z (mcols deg)) (List.length indices) in
    do deg_patches <- mapM (fun s => build_degraded_patch deg s (s + frames_per_patch))
                           (zrange 0 ncols);
    do tables <- foldM (fun tables k =>
                   do rp <- zget ref_patches k;
                   find_most_optimal_deg_patch pf
                     (fun s => do dpat <- zget deg_patches s;
                               do m <- measure_patch_similarity rp dpat;
                               Ok (similarity m))
                     ncols tables indices k search_window)
                 (zero_dp, zero_bt) (zrange 0 (zlen ref_patches));
    let '(dp, bt) := tables in
    let last_index := num_patches - 1 in
    do r_last <- zget indices last_index;
    do lo <- i32_op pf (wrap_i32 r_last - search_window);
    let lower := Z.max 0 lo in
    do up <- uadd pf r_last (search_window mod usize_mod);
    do up1 <- uadd pf up 1;
    do last_row <- zget dp last_index;
    do last_offset <- best_last_offset last_row lower up1 ncols;
    backtrace_loop pf ref_patches indices deg bt frame_duration patch_duration
      (Z.to_nat num_patches) last_offset [].

(** comparison_patches_selector.rs:261-293 *)
Definition slice (s : AudioSignal N) (start_time end_time : T) : res (AudioSignal N) :=
  let rate := # (sample_rate s) in
  let len := sig_len s in
  let start_index := as_usize (start_time [*] rate) in
  let end_index := Z.min (as_usize (end_time [*] rate)) len in
  do body <- zslice (data_matrix s) start_index end_index;
  let end_time_diff := as_usize (end_time [*] rate [-] # len) in
  let body := if 0 <? end_time_diff then body ++ repeat #0 (Z.to_nat end_time_diff) else body in
  let body := if start_time [<] #0
              then repeat #0 (Z.to_nat (as_usize (nneg N start_time [*] rate))) ++ body
              else body in
  Ok {| data_matrix := body; sample_rate := sample_rate s |}.

(** comparison_patches_selector.rs:375-390: keep the better of the two results *)
Definition choose_result (old new : PatchSim N) (lag ref_duration deg_duration : T) : PatchSim N :=
  if similarity new [<] similarity old then old
  else
    let rstart := if #0 [<] lag then ref_patch_start_time old [+] lag
                  else ref_patch_start_time old in
    let dstart := if #0 [<] lag then deg_patch_start_time old
                  else deg_patch_start_time old [-] lag in
    {| freq_band_means := freq_band_means new;
       freq_band_stddevs := freq_band_stddevs new;
       freq_band_deg_energy := freq_band_deg_energy new;
       similarity := similarity new;
       ref_patch_start_time := rstart;
       ref_patch_end_time := rstart [+] ref_duration;
       deg_patch_start_time := dstart;
       deg_patch_end_time := dstart [+] deg_duration |}.

(** lines 332-333 *)
Definition is_lost (p : PatchSim N) : bool :=
  (deg_patch_start_time p [==] deg_patch_end_time p) && (deg_patch_start_time p [==] #0).

(** comparison_patches_selector.rs:331-391: the loop body for one patch *)
Definition realign_patch (pf : profile) (nb : nat) (rs ds : AudioSignal N)
    (window : AnalysisWindow N) (fb : Filterbank N) (old : PatchSim N)
  : Filterbank N * res (PatchSim N) :=
  if is_lost old then (fb, Ok old)
  else
    match slice rs (ref_patch_start_time old) (ref_patch_end_time old) with
    | Err e => (fb, Err e) | Panic p => (fb, Panic p)
    | Ok raudio =>
    match slice ds (deg_patch_start_time old) (deg_patch_end_time old) with
    | Err e => (fb, Err e) | Panic p => (fb, Panic p)
    | Ok daudio =>
    match align_and_truncate pf raudio daudio with
    | Err e => (fb, Err e) | Panic p => (fb, Panic p)
    | Ok None => (fb, Err FailedToAlignSignals)
    | Ok (Some (ra, da, lag)) =>
      let '(fb1, rspec) := build nb fb ra window in
      match rspec with
      | Err e => (fb1, Err e) | Panic p => (fb1, Panic p)
      | Ok rspec =>
        let '(fb2, dspec) := build nb fb1 da window in
        (fb2,
         do dspec <- dspec;
         do rd <- prepare_spectrograms_for_comparison rspec dspec;
         do new <- measure_patch_similarity (sp_data (fst rd)) (sp_data (snd rd));
         Ok (choose_result old new lag (get_duration ra) (get_duration da)))
      end
    end end end.

(** comparison_patches_selector.rs:320-393 *)
Fixpoint finely_align_and_recreate_patches (pf : profile) (nb : nat) (rs ds : AudioSignal N)
    (window : AnalysisWindow N) (fb : Filterbank N) (results : list (PatchSim N))
  : Filterbank N * res (list (PatchSim N)) :=
  match results with
  | [] => (fb, Ok [])
  | old :: t =>
    let '(fb1, r) := realign_patch pf nb rs ds window fb old in
    match r with
    | Err e => (fb1, Err e) | Panic p => (fb1, Panic p)
    | Ok p =>
      let '(fb2, rest) := finely_align_and_recreate_patches pf nb rs ds window fb1 t in
      (fb2, do rest <- rest; Ok (p :: rest))
    end
  end.
End Selector.
