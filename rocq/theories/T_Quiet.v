(** C73: quiet recordings cannot be told apart, in exact arithmetic. *)
From Coq Require Import Reals Lra Lia.
From Verif Require Import Base Num Mat RNum M_Audio M_Align M_Spectro M_Patch M_Nsim M_Visqol Spec Spec2 Spec3 P_Base P_Run P_Level P_Prep P_Quiet T_Same.
Open Scope R_scope.

(** C73: for every sample rate and number of bands there is a loudness below which the
    reference makes every comparison come out perfect, whatever the degraded signal is:
    all similarities are 1, all deviations 0, and the score is what the mapping gives for
    similarity 1. *)
Theorem C73_quiet_reference_is_matched_by_anything : forall nb rate, (1 <= nb)%nat -> (102 <= rate)%Z ->
  exists loud, 0 < loud /\ forall pf v ws (m m' : Manager RN) calls (rs ds : AudioSignal RN) r,
  new_manager nb v ws = Ok m -> (1 <= ws <= 2 ^ 20)%Z ->
  sample_rate rs = rate -> sample_rate ds = rate -> (sig_len rs <= 2 ^ 30)%Z -> not_silent (data_matrix rs) ->
  rms (data_matrix rs) * sqrt (IZR (sig_len rs + sig_len ds)) <= loud ->
  compute_results pf nb (after_calls pf nb m calls) rs ds = (m', Ok r) ->
  fvnsim r = repeat 1 nb /\ vnsim r = 1 /\ fstdnsim r = repeat 0 nb /\
  (forall p, In p (patch_sims r) -> similarity p = 1 /\ freq_band_means p = repeat 1 nb /\ freq_band_stddevs p = repeat 0 nb) /\
  predict_quality (mg_mapper m) (repeat 1 nb) = Ok (moslqo r).
Proof. exact quiet_all. Qed.
Print Assumptions C73_quiet_reference_is_matched_by_anything.

(** C73: any two recordings, both turned down by the same factor, are rated a perfect
    copy of each other once the factor is small enough. *)
Theorem C73_turned_down : forall nb rate (x y : list R), (1 <= nb)%nat -> (102 <= rate)%Z -> (zlen x <= 2 ^ 30)%Z -> not_silent x ->
  exists g0, 0 < g0 /\ forall g, 0 < g <= g0 -> forall pf v ws (m m' : Manager RN) calls r,
  new_manager nb v ws = Ok m -> (1 <= ws <= 2 ^ 20)%Z ->
  compute_results pf nb (after_calls pf nb m calls) (@Build_AudioSignal RN (map (Rmult g) x) rate) (@Build_AudioSignal RN (map (Rmult g) y) rate) = (m', Ok r) ->
  fvnsim r = repeat 1 nb /\ vnsim r = 1 /\ fstdnsim r = repeat 0 nb /\
  (forall p, In p (patch_sims r) -> similarity p = 1 /\ freq_band_means p = repeat 1 nb /\ freq_band_stddevs p = repeat 0 nb) /\
  predict_quality (mg_mapper m) (repeat 1 nb) = Ok (moslqo r).
Proof. intros nb rate x y Hnb Hr Hl NS. exact (turned_down nb rate (@Build_AudioSignal RN x rate) (@Build_AudioSignal RN y rate) Hnb Hr eq_refl eq_refl Hl NS). Qed.
Print Assumptions C73_turned_down.

(** C29: where no value exceeds 1 (0 dB), the floor relative to the peak of a frame has
    no effect: every value becomes its level, at least -45 dB, less the smallest level. *)
Theorem C29_relative_floor_idle : forall r d r' d' : Spectrogram RN,
  mcols (sp_data d) = mcols (sp_data r) -> (1 <= mrows (sp_data r))%nat -> (1 <= mrows (sp_data d))%nat -> (1 <= mcols (sp_data r))%nat ->
  let both := [(r, r'); (d, d')] in
  (forall s s' i j x, In (s, s') both -> value_at s i j x -> Rabs x <= 1) ->
  prepare_spectrograms_for_comparison r d = Ok (r', d') ->
  exists low, (exists s s' i j x, In (s, s') both /\ value_at s i j x /\ level x = low) /\
    forall s s' i j x, In (s, s') both -> value_at s i j x -> low <= level x /\ value_at s' i j (level x - low).
Proof. exact relative_idle. Qed.
Print Assumptions C29_relative_floor_idle.

(** A constant and a signal that changes its sign with every sample: the comparison
    succeeds at every volume, and at a small enough one it is perfect. *)
Definition steady : list R := repeat (1 / 2) 200.
Definition buzz : list R := List.concat (repeat [1 / 2; - (1 / 2)] 100).
Example C73_example : not_silent steady /\ steady <> buzz /\
  exists g, 0 < g /\ forall pf calls, exists m m' r, new_manager (N:=RN) 32 (Fullband (Some flat_model)) 60 = Ok m /\
  compute_results pf 32 (after_calls pf 32 m calls) (@Build_AudioSignal RN (map (Rmult g) steady) 150) (@Build_AudioSignal RN (map (Rmult g) buzz) 150) = (m', Ok r) /\
  vnsim r = 1.
Proof.
  assert (NS : not_silent steady) by (exists (1 / 2); split; [left; reflexivity|lra]). split; [exact NS|].
  split; [intros E; apply (f_equal (fun l => nth 1 l 0)) in E; change (1 / 2 = - (1 / 2)) in E; lra|].
  assert (Lx : zlen steady = 200%Z) by (unfold zlen, steady; rewrite repeat_length; reflexivity).
  assert (Ly : zlen buzz = 200%Z) by reflexivity.
  destruct (C73_turned_down 32 150 steady buzz ltac:(lia) ltac:(lia) ltac:(rewrite Lx; lia) NS) as (g & G0 & H).
  exists g. split; [exact G0|]. intros pf calls.
  assert (HM : exists m, new_manager (N:=RN) 32 (Fullband (Some flat_model)) 60 = Ok m) by (eexists; reflexivity). destruct HM as (m & Hm). exists m. set (rs := @Build_AudioSignal RN (map (Rmult g) steady) 150). set (ds := @Build_AudioSignal RN (map (Rmult g) buzz) 150).
  assert (L1 : sig_len rs = 200%Z) by (unfold sig_len, rs, zlen; cbn [data_matrix]; rewrite map_length; exact Lx).
  assert (L2 : sig_len ds = 200%Z) by (unfold sig_len, ds, zlen; cbn [data_matrix]; rewrite map_length; exact Ly).
  assert (T : exists m' r, compute_results pf 32 (after_calls pf 32 m calls) rs ds = (m', Ok r)).
  { apply (direct_full pf 32 flat_model 60 m calls rs ds 3 Hm); rewrite ?L1, ?L2; try reflexivity; try lia.
    intros fv Hf. exists 3. unfold svr_predict. cbn [svr_features flat_model svr_value]. unfold zlen. rewrite Hf. reflexivity. }
  destruct T as (m' & r & E). exists m', r. split; [exact Hm|]. split; [exact E|]. eapply (H g); [|exact Hm| |exact E]; [lra|lia].
Qed.
