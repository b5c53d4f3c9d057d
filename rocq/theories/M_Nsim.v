(** Model of convolution_2d.rs, neurogram_similiarity_index_measure.rs and
    patch_similarity_comparator.rs. *)
From Verif Require Import Base Num Mat M_Audio.

Section Nsim.
Context {N : NumOps}.
Open Scope num_scope.
Notation T := (num N).

(** ** convolution_2d.rs *)

(** convolution_2d.rs:70-89, with the given number of rows and columns of zeros
    before and after *)
Definition copy_matrix_within_padding (m : mat N) (rpre rpost cpre cpost : nat) : mat N :=
  mbuild (rpre + mrows m + rpost) (cpre + mcols m + cpost)
    (fun i j => if (rpre <=? i)%nat && (i <? rpre + mrows m)%nat
                   && (cpre <=? j)%nat && (j <? cpre + mcols m)%nat
                then mget m (i - rpre) (j - cpre) else #0).

(** convolution_2d.rs:52-67: first the two border rows are overwritten by their
    neighbours (lines 55-59), then the two border columns (lines 61-65). *)
Definition add_matrix_boundary (m : mat N) : mat N :=
  let p := copy_matrix_within_padding m 1 1 1 1 in
  let R := mrows p in
  let C := mcols p in
  let p1 := mbuild R C (fun i j =>
              if (i =? 0)%nat then mget p 1 j
              else if (i =? R - 1)%nat then mget p (R - 2) j
              else mget p i j) in
  mbuild R C (fun i j =>
    if (j =? 0)%nat then mget p1 i 1
    else if (j =? C - 1)%nat then mget p1 i (C - 2)
    else mget p1 i j).

(** convolution_2d.rs:25-34: the sum for output entry (o_row, o_col).  [flat] is
    the padded matrix and [filt] the filter, both flattened row by row; the filter
    index runs down from its last entry while the loop goes column by column. *)
Definition conv_sum (flat filt : list T) (icc frc fcc o_row o_col : nat) : T :=
  fst (fold_left (fun st fc =>
         fold_left (fun (st : T * nat) fr =>
             let '(sum, fi) := st in
             (sum [+] nth ((fr + o_row) * icc + fc + o_col) flat #0 [*] nth fi filt #0,
              Nat.pred fi))
           (seq 0 frc) st)
       (seq 0 fcc) (#0, frc * fcc - 1)%nat).

(** convolution_2d.rs:4-39 (and flatten_matrix, 41-49).  A filter larger than the
    padded matrix makes the subtraction at lines 15-16 panic in debug and the
    allocation at line 21 fail in release. *)
Definition perform_valid_2d_conv_with_boundary (filter input : mat N) : res (mat N) :=
  let padded := add_matrix_boundary input in
  let flat := mflat padded in
  let filt := mflat filter in
  if (mrows filter <=? mrows padded)%nat && (mcols filter <=? mcols padded)%nat then
    Ok (mbuild (mrows padded - mrows filter + 1) (mcols padded - mcols filter + 1)
          (fun i j => conv_sum flat filt (mcols padded) (mrows filter) (mcols filter) i j))
  else Panic POverflow.

(** ** neurogram_similiarity_index_measure.rs *)

(** neurogram_similiarity_index_measure.rs:34-38 *)
Definition nsim_window : mat N :=
  let c := nlit N 113033910173052 16 in
  let e := nlit N 838251475442633 16 in
  let m := nlit N 619485845753726 15 in
  {| mrows := 3; mcols := 3; mdata := [[c; e; c]; [e; m; e]; [c; e; c]] |}.

(** lines 40-42, intensity_range = 1.0 (line 22) *)
Definition INTENSITY_RANGE : T := #1.
Definition nsim_c1 : T := npowf N (nlit N 1 2 [*] INTENSITY_RANGE) #2.
Definition nsim_c3 : T := npowf N (nlit N 3 2 [*] INTENSITY_RANGE) #2 [/] #2.

(** patch_similarity_comparator.rs:6-23 *)
Record PatchSim : Type := {
  freq_band_means : list T;
  freq_band_stddevs : list T;
  freq_band_deg_energy : list T;
  similarity : T;
  ref_patch_start_time : T;
  ref_patch_end_time : T;
  deg_patch_start_time : T;
  deg_patch_end_time : T
}.

(** patch_similarity_comparator.rs:27-43 *)
Definition new_patch_sim (means stds energy : list T) (sim : T) : PatchSim :=
  {| freq_band_means := means; freq_band_stddevs := stds; freq_band_deg_energy := energy;
     similarity := sim;
     ref_patch_start_time := #0; ref_patch_end_time := #0;
     deg_patch_start_time := #0; deg_patch_end_time := #0 |}.

(** lines 44-89: the similarity map *)
Definition nsim_map (r d : mat N) : res (mat N) :=
  let w := nsim_window in
  do mu_ref <- perform_valid_2d_conv_with_boundary w r;
  do mu_deg <- perform_valid_2d_conv_with_boundary w d;
  do ref_mu_sq <- mzip (nmul N) mu_ref mu_ref;
  do deg_mu_sq <- mzip (nmul N) mu_deg mu_deg;
  do mu_r_mu_d <- mzip (nmul N) mu_ref mu_deg;
  do ref_neuro_sq <- mzip (nmul N) r r;
  do deg_neuro_sq <- mzip (nmul N) d d;
  do conv_ref_sq <- perform_valid_2d_conv_with_boundary w ref_neuro_sq;
  do sigma_ref_sq <- mzip (nsub N) conv_ref_sq ref_mu_sq;
  do conv_deg_sq <- perform_valid_2d_conv_with_boundary w deg_neuro_sq;
  do sigma_deg_sq <- mzip (nsub N) conv_deg_sq deg_mu_sq;
  do ref_neuro_deg <- mzip (nmul N) r d;
  do conv_rd <- perform_valid_2d_conv_with_boundary w ref_neuro_deg;
  do sigma_r_d <- mzip (nsub N) conv_rd mu_r_mu_d;
  let intensity_num := mmap (fun x => x [*] #2 [+] nsim_c1) mu_r_mu_d in
  do mu_sum <- mzip (nadd N) ref_mu_sq deg_mu_sq;
  let intensity_den := mmap (fun x => x [+] nsim_c1) mu_sum in
  do intensity <- mzip (ndiv N) intensity_num intensity_den;
  let structure_num := mmap (fun x => x [+] nsim_c3) sigma_r_d in
  do sden <- mzip (nmul N) sigma_ref_sq sigma_deg_sq;
  let structure_den :=
    mmap (fun x => if x [<] #0 then nsim_c3 else nsqrt N x [+] nsim_c3) sden in
  do structure <- mzip (ndiv N) structure_num structure_den;
  mzip (nmul N) intensity structure.

(** lines 29-108.  The row means of [d] are summed as for a row-major array; for a
    patch that was zero padded ndarray's layout is column-major and the additions
    happen in another order, which can change the last bits of
    [freq_band_deg_energy] (not modelled). *)
Definition measure_patch_similarity (r d : mat N) : res PatchSim :=
  do sim_map <- nsim_map r d;
  do energy <- (match mean_axis1_c d with Some l => Ok l | None => Panic PExpect end);
  do means <- (match mean_axis1_f sim_map with Some l => Ok l | None => Panic PExpect end);
  do stds <- std_axis1 sim_map;
  do sim <- (match nd_mean means with Some x => Ok x | None => Panic PExpect end);
  Ok (new_patch_sim means stds energy sim).
End Nsim.

Arguments PatchSim N : clear implicits.
