(** C51: debug and release builds. *)
From Flocq Require Import Core IEEE754.BinarySingleNaN.
From Verif Require Import Base Num Mat M_Audio M_Patch M_Nsim M_Selector M_Visqol M_Cli F64 Witness WitnessZ P_Profile.

(** C51: a comparison that does not panic in a debug build gives, in a release
    build, the same outcome (result or error) and leaves the manager in the same
    state; *)
Theorem C51_debug_run_is_release_run : forall N nb files (m m' : Manager N) a b x,
  run Debug nb files m a b = (m', x) -> ~ is_panic x ->
  run Release nb files m a b = (m', x).
Proof. intros N nb files m m' a b x. exact (C51_run nb files m a b m' x). Qed.
Print Assumptions C51_debug_run_is_release_run.

(** ... and the command line tool then has the same output and outcome. *)
Theorem C51_debug_tool_is_release_tool : forall N (w : World N) args out x,
  main Debug w args = (out, x) -> ~ is_panic x -> main Release w args = (out, x).
Proof. intros N. exact C51_main. Qed.
Print Assumptions C51_debug_tool_is_release_tool.

(** In a release build the search radius is only used modulo 2^32 over the patch
    width, *)
Theorem C51_release_radius_wraps : forall N (p0 : mat N) rp idx (deg : mat N) fd r1 r2,
  Z.of_nat (mcols p0) < 2 ^ 31 ->
  (r1 * Z.of_nat (mcols p0)) mod 2 ^ 32 = (r2 * Z.of_nat (mcols p0)) mod 2 ^ 32 ->
  find_most_optimal_deg_patches Release (p0 :: rp) idx deg fd r1 =
  find_most_optimal_deg_patches Release (p0 :: rp) idx deg fd r2.
Proof. intros N. exact C51_radius. Qed.
Print Assumptions C51_release_radius_wraps.

(** so there are runs that panic in debug and succeed in release: fullband with
    radius 2^30, which acts like radius 0. *)
Definition w_wide_manager : Manager (F64 lm_ex) :=
  match new_manager 1 (Fullband (Some w_svr)) (2 ^ 30) with Ok m => m | _ => w_manager (Wideband false) end.
Definition w_short_files (path : string) : wav :=
  if String.eqb path "ref.wav" then WavOk 1 100 16 (noise 7919 118) else WavOk 1 100 16 (noise 7919 117).
Definition w_patches (r : res (SimilarityResult (F64 lm_ex))) : option nat :=
  match r with Ok r => Some (List.length (patch_sims r)) | _ => None end.
Lemma w_run_wide_release :
  w_patches (snd (run Release 1 w_short_files w_wide_manager "ref.wav" "deg.wav")) = Some 2%nat.
Proof. vm_cast_no_check (@eq_refl (option nat) (Some 2%nat)). Qed.
Lemma w_run_wide_debug :
  snd (run Debug 1 w_short_files w_wide_manager "ref.wav" "deg.wav") = Panic POverflow.
Proof. vm_cast_no_check (@eq_refl (res (SimilarityResult (F64 lm_ex))) (Panic POverflow)). Qed.
Lemma w_patches_some (x : Manager (F64 lm_ex) * res (SimilarityResult (F64 lm_ex))) n : w_patches (snd x) = Some n ->
  exists m' s, x = (m', Ok s).
Proof. destruct x as [m' [s| |]]; cbn; try discriminate. eauto. Qed.

Theorem C51_release_run_is_debug_run_refuted : exists lm nb files (m m' : Manager (F64 lm)) a b r,
  run Release nb files m a b = (m', Ok r) /\ snd (run Debug nb files m a b) = Panic POverflow.
Proof.
  destruct (w_patches_some _ _ w_run_wide_release) as (m' & s & E).
  exists lm_ex, 1%nat, w_short_files, w_wide_manager, m', "ref.wav"%string, "deg.wav"%string, s. split; [exact E|exact w_run_wide_debug].
Qed.
Print Assumptions C51_release_run_is_debug_run_refuted.

Example C51_example : exists m' r,
  run Debug 1 w_files (w_manager (Wideband false)) "ref.wav" "deg.wav" = (m', Ok r) /\
  run Release 1 w_files (w_manager (Wideband false)) "ref.wav" "deg.wav" = (m', Ok r).
Proof.
  destruct (w_summary_some _ _ w_run_wideband) as (m' & s & E & _). exists m', s. split; [exact E|].
  apply (C51_debug_run_is_release_run _ _ _ _ _ _ _ _ E). intros [p H]. discriminate.
Qed.
Example C51_radius_example :
  find_most_optimal_deg_patches Release [mbuild (N:=ZN) 1 4 (fun _ j => Z.of_nat j)] [1] (mbuild (N:=ZN) 1 6 (fun _ j => Z.of_nat j)) 1 (2 ^ 30) =
  find_most_optimal_deg_patches Release [mbuild (N:=ZN) 1 4 (fun _ j => Z.of_nat j)] [1] (mbuild (N:=ZN) 1 6 (fun _ j => Z.of_nat j)) 1 0.
Proof. apply C51_release_radius_wraps; reflexivity. Qed.
