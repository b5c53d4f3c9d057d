(** C54 in binary64: the reported similarities agree with each other up to rounding. *)
From Coq Require Import Reals Lra Lia.
From Flocq Require Import Core IEEE754.BinarySingleNaN.
From Verif Require Import Base Num F64 M_Audio M_Nsim M_Visqol Spec Spec14 P_Base P_F64 Witness P_RangeF T_Silent T_SilRef.
Open Scope R_scope.

(** The similarity of every patch is the mean of its bands up to 2^-40. *)
Theorem C54_patch_mean_f64 : forall pf lm nb files (m m' : Manager (F64 lm)) a b r p,
  run pf nb files m a b = (m', Ok r) -> (1 <= nb <= 1024)%nat -> In p (patch_sims r) ->
  Forall similarity_like (freq_band_means p) ->
  is_finite (similarity p : f64) = true /\
  Rabs (B2R (similarity p : f64) - mean_R (map (fun x : f64 => B2R x) (freq_band_means p))) <= bpow radix2 (-40).
Proof. exact run_patch_mean_f64. Qed.
Print Assumptions C54_patch_mean_f64.

(** No deviation of a patch is below zero, whatever was compared. *)
Theorem C54_patch_deviations_f64 : forall pf lm nb files (m m' : Manager (F64 lm)) a b r p,
  run pf nb files m a b = (m', Ok r) -> In p (patch_sims r) ->
  Forall (fun x : f64 => Bltb x (f64_ofZ 0) = false) (freq_band_stddevs p).
Proof. exact run_patch_devs_f64. Qed.
Print Assumptions C54_patch_deviations_f64.

(** The overall similarity is the mean of the similarities of the patches up to 2^-29. *)
Theorem C54_overall_is_patch_mean_f64 : forall pf lm nb files (m m' : Manager (F64 lm)) a b r,
  run pf nb files m a b = (m', Ok r) -> (1 <= nb <= 1024)%nat -> (zlen (patch_sims r) <= 2 ^ 20)%Z ->
  Forall (fun p : PatchSim (F64 lm) => Forall near_similarity (freq_band_means p)) (patch_sims r) ->
  is_finite (vnsim r : f64) = true /\
  Rabs (B2R (vnsim r : f64) - mean_R (map (fun p : PatchSim (F64 lm) => B2R (similarity p : f64)) (patch_sims r))) <= bpow radix2 (-29).
Proof. exact overall_patch_mean_f64. Qed.
Print Assumptions C54_overall_is_patch_mean_f64.

(** A run with two patches that meets the hypotheses. *)
Example C54_f64_example : exists m' r,
  run Debug 1 mute_files (sil_manager 1) "ref.wav" "deg.wav" = (m', Ok r) /\ List.length (patch_sims r) = 2%nat /\
  Forall (fun p : PatchSim (F64 lm_sil) => Forall near_similarity (freq_band_means p)) (patch_sims r).
Proof.
  destruct C70_example as (SQ & FF & HI & HE & NM & m' & r & E & L & _). exists m', r. split; [exact E|]. split; [exact L|].
  destruct C42_library as (A & B & _).
  destruct (C70_silent_reference_file lm_sil Debug 1 (Fullband (Some sil_svr)) 1 mute_files (sil_manager 1) m' [] "ref.wav" "deg.wav" r 50 56 mute_vs A B SQ FF
    eq_refl ltac:(lia) ltac:(lia) ltac:(lia) eq_refl ltac:(lia) eq_refl HI ltac:(vm_compute; discriminate) HE E) as (_ & _ & Q & _).
  apply Forall_forall. intros p Hp. destruct (Q p Hp) as [_ Z]. apply Forall_forall. intros x Hx.
  change (num (F64 lm_sil)) with f64 in *. rewrite Z in Hx. apply repeat_spec in Hx. subst x. split; [reflexivity|].
  rewrite ofZ_B2R by lia. rewrite Rabs_pos_eq; lra.
Qed.
