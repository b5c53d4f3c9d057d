(** C27, C35, C36, C38: convolution, the similarity index, fine alignment and the
    statistics over patches. *)
From Coq Require Import Reals Lra.
From Flocq Require Import Core IEEE754.BinarySingleNaN.
From Verif Require Import Base Num Mat F64 RNum M_Audio M_Align M_Spectro M_Patch M_Nsim M_Selector M_Visqol.
From Verif Require Import Spec Spec2 Witness WitnessZ P_Mat P_Conv P_Nsim P_Agg.
Open Scope R_scope.

(** C35, every arithmetic: same shape, and each entry is the weighted sum of the 3 x 3
    neighbourhood with coordinates clamped to the border. *)
Theorem C35_shape_and_entries : forall (N : NumOps) (k m : mat N),
  mat_wf k -> mrows k = 3%nat -> mcols k = 3%nat -> mat_wf m -> (1 <= mrows m)%nat -> (1 <= mcols m)%nat ->
  exists o, perform_valid_2d_conv_with_boundary k m = Ok o /\ mat_wf o /\
    mrows o = mrows m /\ mcols o = mcols m /\
    forall i j, (i < mrows m)%nat -> (j < mcols m)%nat -> mget o i j = conv3 k m i j.
Proof. exact @C35_gen. Qed.
Print Assumptions C35_shape_and_entries.

(** In exact arithmetic, for a symmetric kernel, this is the textbook convolution. *)
Theorem C35_convolution_symmetric_kernel : forall (k m o : mat RN),
  mat_wf k -> mrows k = 3%nat -> mcols k = 3%nat -> mat_wf m -> (1 <= mrows m)%nat -> (1 <= mcols m)%nat ->
  (forall a b, (a < 3)%nat -> (b < 3)%nat -> mget k a b = mget k b a) ->
  perform_valid_2d_conv_with_boundary k m = Ok o ->
  forall i j, (i < mrows m)%nat -> (j < mcols m)%nat -> mget o i j = true_conv k m i j.
Proof. exact C35_symmetric. Qed.
Print Assumptions C35_convolution_symmetric_kernel.

(** For other kernels it is not. *)
Theorem C35_convolution_refuted : exists (k m o : mat RN),
  mat_wf k /\ mrows k = 3%nat /\ mcols k = 3%nat /\ mat_wf m /\ mrows m = 2%nat /\ mcols m = 2%nat /\
  perform_valid_2d_conv_with_boundary k m = Ok o /\ mget o 0 0 <> true_conv k m 0 0.
Proof. exact C35_refuted. Qed.
Print Assumptions C35_convolution_refuted.

Example C35_example : mat_wf (nsim_window (N:=RN)) /\
  (forall a b, (a < 3)%nat -> (b < 3)%nat -> mget (nsim_window (N:=RN)) a b = mget nsim_window b a) /\
  mat_wf mx /\ near mx 1 2 1 2 = 4 /\ near mx 1 0 0 0 = 1.
Proof.
  split; [apply window_wf|]. split; [|split; [apply mx_wf|split; reflexivity]].
  intros a b Ha Hb. destruct a as [|[|[|a]]]; [| | |lia]; (destruct b as [|[|[|b]]]; [| | |lia]); reflexivity.
Qed.

(** C36, f64: swapping the patches changes no bit of means, deviations, similarity. *)
Theorem C36_symmetric : forall lm (r d : mat (F64 lm)),
  mat_wf r -> mat_wf d -> mrows d = mrows r -> mcols d = mcols r -> (1 <= mrows r)%nat -> (1 <= mcols r)%nat ->
  exists p q, measure_patch_similarity r d = Ok p /\ measure_patch_similarity d r = Ok q /\
    freq_band_means p = freq_band_means q /\ freq_band_stddevs p = freq_band_stddevs q /\
    similarity p = similarity q.
Proof. exact C36_sym_f64. Qed.
Print Assumptions C36_symmetric.

(** Exact arithmetic: the similarity is the NSIM formula. *)
Theorem C36_formula : forall (r d : mat RN),
  mat_wf r -> mat_wf d -> mrows d = mrows r -> mcols d = mcols r -> (1 <= mrows r)%nat -> (1 <= mcols r)%nat ->
  let row i := map (nsim_at r d i) (seq 0 (mcols r)) in
  exists p, measure_patch_similarity r d = Ok p /\
    freq_band_means p = map (fun i => mean_of (row i)) (seq 0 (mrows r)) /\
    freq_band_stddevs p = map (fun i => sample_std (row i)) (seq 0 (mrows r)) /\
    freq_band_deg_energy p = map mean_of (mdata d) /\
    similarity p = mean_of (freq_band_means p).
Proof. exact measure_R. Qed.
Print Assumptions C36_formula.

Theorem C36_at_most_one : forall (r d : mat RN) p,
  mat_wf r -> mat_wf d -> mrows d = mrows r -> mcols d = mcols r -> (1 <= mrows r)%nat -> (1 <= mcols r)%nat ->
  measure_patch_similarity r d = Ok p ->
  (forall i j, -1 <= nsim_at r d i j <= 1) /\
  Forall (fun x => -1 <= x <= 1) (freq_band_means p) /\ -1 <= similarity p <= 1.
Proof. exact C36_le_1. Qed.
Print Assumptions C36_at_most_one.

Theorem C36_identical : forall (r : mat RN), mat_wf r -> (1 <= mrows r)%nat -> (1 <= mcols r)%nat ->
  exists p, measure_patch_similarity r r = Ok p /\ similarity p = 1 /\
    freq_band_means p = repeat 1 (mrows r) /\ freq_band_stddevs p = repeat 0 (mrows r).
Proof. exact C36_same. Qed.
Print Assumptions C36_identical.

(** Two different patches whose similarity is below 1. *)
Example C36_example : mat_wf mx /\ mat_wf mx0 /\ mrows mx0 = mrows mx /\ mcols mx0 = mcols mx /\
  nsim_at mx mx0 0 0 < 1.
Proof. exact C36_ex. Qed.

(** C27: fine alignment keeps number and order; a lost patch is unchanged, every other
    is unchanged or not less similar (as f64; a NaN compares as not less). *)
Theorem C27_never_lowers : forall (lm : Libm) pf nb rs ds w (f f' : Filterbank (F64 lm)) l out,
  finely_align_and_recreate_patches pf nb rs ds w f l = (f', Ok out) ->
  Forall2 (fun old new : PatchSim (F64 lm) => (is_lost old = true -> new = old) /\
     (new = old \/ Bltb (similarity new : f64) (similarity old : f64) = false)) l out.
Proof. exact (fun lm pf nb rs ds w f f' l out => C27_gen (N:=F64 lm) pf nb rs ds w l f f' out). Qed.
Print Assumptions C27_never_lowers.

Example C27_example : exists rs ds w fb fb' (l out : list (PatchSim (F64 lm_ex))),
  finely_align_and_recreate_patches Debug 1 rs ds w fb l = (fb', Ok out) /\ List.length out = 2%nat.
Proof. exact C27_ex. Qed.

(** C38: the averages over the patches of a result. *)
Theorem C38_averages : forall (N : NumOps) pf nb files (m m' : Manager N) a b r,
  run pf nb files m a b = (m', Ok r) ->
  let n := nofZ N (zlen (patch_sims r)) in
  List.length (fvnsim r) = nb /\ List.length (fvdegenergy r) = nb /\
  (forall k d, (k < nb)%nat ->
     nth k (fvnsim r) d = ndiv N (seq_sum (map (fun p => nth k (freq_band_means p) d) (patch_sims r))) n) /\
  (forall k d, (k < nb)%nat ->
     nth k (fvdegenergy r) d = ndiv N (seq_sum (map (fun p => nth k (freq_band_deg_energy p) d) (patch_sims r))) n) /\
  vnsim r = ndiv N (nd_sum (fvnsim r)) (nofZ N (Z.of_nat nb)).
Proof. exact @C38_run. Qed.
Print Assumptions C38_averages.

Theorem C38_deviations_not_negative : forall pf lm nb files (m m' : Manager (F64 lm)) a b r,
  run pf nb files m a b = (m', Ok r) ->
  List.length (fstdnsim r) = nb /\ Forall (fun x : f64 => Bltb x (f64_ofZ 0) = false) (fstdnsim r).
Proof. exact C38_nonneg. Qed.
Print Assumptions C38_deviations_not_negative.

(** Exact arithmetic: the deviation of the pooled values of equally long patches. *)
Theorem C38_pooled_deviation : forall pf fd nbands n (info : list (PatchSim RN)) vals,
  0 < fd -> (1 <= n)%nat -> info <> [] -> (Z.of_nat n * zlen info < 2 ^ 64)%Z ->
  Forall2 (pooled_patch fd nbands n) info vals ->
  exists out, calc_per_patch_mean_freq_band_std_devs (N:=RN) pf info fd = Ok out /\ List.length out = nbands /\
    forall b, (b < nbands)%nat -> nth b out 0 = sample_std (List.concat (map (fun rows => nth b rows []) vals)).
Proof. exact C38_pooled. Qed.
Print Assumptions C38_pooled_deviation.

Example C38_example :
  (exists m' r, run Debug 1 w_files (w_manager (Wideband false)) "ref.wav" "deg.wav" = (m', Ok r)) /\
  Forall2 (pooled_patch (1 / 50) 1 2) [ex_patch 1 3; ex_patch 2 8] [[[1; 3]]; [[2; 8]]] /\
  sample_std [1; 3; 2; 8] = R_sqrt.sqrt (29 / 3).
Proof. exact C38_ex. Qed.
