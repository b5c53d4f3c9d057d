(** C28: the times of the reported patches. *)
From Coq Require Import Reals.
From Flocq Require Import Core IEEE754.BinarySingleNaN.
From Verif Require Import Base Num Mat F64 M_Audio M_Align M_Spectro M_Patch M_Nsim M_Selector M_Visqol.
From Verif Require Import Spec Spec2 Witness P_Times.
Open Scope R_scope.

(** Every patch of a successful run has finite times with 0 <= start <= end.  Its
    duration is the nominal one (30 or 20 hops), with the times in the degraded signal
    zeroed if the patch is lost, or a number of samples which is the same in both
    signals. *)
Theorem C28_patch_times : forall lm pf nb v ws (m m' : Manager (F64 lm)) calls files a b r,
  new_manager nb v ws = Ok m ->
  (forall p s, In p [a; b] -> load_as_mono (N:=F64 lm) (files p) = Ok s ->
     (1 <= sample_rate s < 2 ^ 32 /\ sig_len s <= 2 ^ 62)%Z) ->
  run pf nb files (after_calls pf nb m calls) a b = (m', Ok r) ->
  exists rate (hop pd : f64),
    (forall s, load_as_mono (N:=F64 lm) (files a) = Ok s -> sample_rate s = rate) /\
    hop = Bdiv mode_NE (Bmult mode_NE (f64_ofZ (win_size (new_window (N:=F64 lm) rate OVERLAP WINDOW_DURATION)))
                                      (f64_lit 25 2)) (f64_ofZ rate) /\
    pd = Bmult mode_NE hop (f64_ofZ (match v with Wideband _ => 30 | Fullband _ => 20 end)) /\
    forall p, In p (patch_sims r) ->
      (is_finite (ref_patch_start_time p : f64) = true /\ is_finite (ref_patch_end_time p : f64) = true /\
       0 <= B2R (ref_patch_start_time p) <= B2R (ref_patch_end_time p)) /\
      (is_finite (deg_patch_start_time p : f64) = true /\ is_finite (deg_patch_end_time p : f64) = true /\
       0 <= B2R (deg_patch_start_time p) <= B2R (deg_patch_end_time p)) /\
      ((ref_patch_end_time p = Bplus mode_NE (ref_patch_start_time p) pd /\
        (deg_patch_end_time p = Bplus mode_NE (deg_patch_start_time p) pd \/
         deg_patch_start_time p = f64_ofZ 0 /\ deg_patch_end_time p = f64_ofZ 0)) \/
       exists n, (0 <= n)%Z /\
         ref_patch_end_time p = Bplus mode_NE (ref_patch_start_time p) (Bdiv mode_NE (f64_ofZ n) (f64_ofZ rate)) /\
         deg_patch_end_time p = Bplus mode_NE (deg_patch_start_time p) (Bdiv mode_NE (f64_ofZ n) (f64_ofZ rate))).
Proof. exact C28_f64. Qed.
Print Assumptions C28_patch_times.

Example C28_example : exists m' r,
  new_manager 1 (Wideband false) 0 = Ok (w_manager (Wideband false)) /\
  (forall p s, In p ["ref.wav"; "deg.wav"]%string -> load_as_mono (N:=F64 lm_ex) (w_files p) = Ok s ->
     (1 <= sample_rate s < 2 ^ 32 /\ sig_len s <= 2 ^ 62)%Z) /\
  run Debug 1 w_files (after_calls Debug 1 (w_manager (Wideband false)) []) "ref.wav" "deg.wav" = (m', Ok r) /\
  List.length (patch_sims r) = 2%nat.
Proof. exact C28_ex. Qed.
