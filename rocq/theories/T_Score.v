(** C01 - C04: the reported score. *)
From Coq Require Import Reals Lra.
From Flocq Require Import Core IEEE754.BinarySingleNaN.
From Verif Require Import Base Num F64 RNum M_Audio M_Visqol Spec Witness P_Score.
Open Scope R_scope.

(** C01: a reported score is in [1, 5] or NaN, for every build profile, math
    library, FFT, file contents, manager (any mapper, any radius). *)
Theorem C01_mos_range : forall pf lm nb files (m m' : Manager (F64 lm)) a b r,
  run pf nb files m a b = (m', Ok r) ->
  is_nan (moslqo r : f64) = true \/ f64_in 1 5 (moslqo r).
Proof. exact C01_range. Qed.
Print Assumptions C01_mos_range.

(** C01: NaN is reported only if vnsim is not below 0.15 and the mapping itself is NaN. *)
Theorem C01_nan_only_from_mapping : forall pf lm nb v w (m : Manager (F64 lm)) calls files a b m' r,
  new_manager nb v w = Ok m ->
  run pf nb files (after_calls pf nb m calls) a b = (m', Ok r) ->
  is_nan (moslqo r : f64) = true ->
  Bltb (vnsim r) (f64_lit 15 2) = false /\
  exists x, mapped_raw lm v (fvnsim r) x /\ is_nan x = true.
Proof. exact C01_nan. Qed.
Print Assumptions C01_nan_only_from_mapping.

Example C01_example : exists m' r,
  run Debug 1 w_files (w_manager (Wideband false)) "ref.wav" "deg.wav" = (m', Ok r) /\
  B2SF (moslqo r : f64) = SpecFloat.S754_finite false 4678765203245476 (-51).
Proof.
  destruct (w_summary_some _ _ w_run_wideband) as (m' & s & E & [= H _ _]). exists m', s. auto.
Qed.

(** C02: below 0.15 the score is exactly 1.0; otherwise it is the clamped mapping. *)
Theorem C02_extremes : forall pf lm nb v w (m : Manager (F64 lm)) calls files a b m' r,
  new_manager nb v w = Ok m ->
  run pf nb files (after_calls pf nb m calls) a b = (m', Ok r) ->
  (Bltb (vnsim r) (f64_lit 15 2) = true -> moslqo r = f64_ofZ 1) /\
  (Bltb (vnsim r) (f64_lit 15 2) = false ->
     exists x, mapped_raw lm v (fvnsim r) x /\ moslqo r = clamp_1_5 x).
Proof. exact C02_all. Qed.
Print Assumptions C02_extremes.

(** Both sides of C02 happen: vnsim = 0.0999 with score 1, and vnsim = 0.6325. *)
Example C02_example_low : exists m' r,
  run Debug 1 w_files (w_manager (Wideband false)) "ref.wav" "click.wav" = (m', Ok r) /\
  Bltb (vnsim r) (f64_lit 15 2) = true /\ moslqo r = f64_ofZ 1.
Proof.
  destruct (w_summary_some _ _ w_run_low) as (m' & s & E & [= H1 H2 _]).
  exists m', s. split; auto.
  assert (L : Bltb (vnsim s) (f64_lit 15 2) = true).
  { unfold Bltb. rewrite <- H2. vm_compute. reflexivity. }
  split; auto.
  apply (C02_extremes Debug lm_ex 1 (Wideband false) 0 (w_manager (Wideband false)) [] w_files
           "ref.wav" "click.wav" m' s eq_refl E); auto.
Qed.
Example C02_example_high : exists m' r,
  run Release 1 w_files (w_manager (Fullband (Some w_svr))) "ref.wav" "deg.wav" = (m', Ok r) /\
  Bltb (vnsim r) (f64_lit 15 2) = false.
Proof.
  destruct (w_summary_some _ _ w_run_fullband) as (m' & s & E & [= H1 H2 _]).
  exists m', s. split; auto.
  unfold Bltb. rewrite <- H2. vm_compute. reflexivity.
Qed.

(** C03: the wideband mapping is monotone in the mean, in f64, infinities included. *)
Theorem C03_monotone_f64 : forall lm scaled v1 v2 q1 q2, monotone_exp lm ->
  predict_quality (N:=F64 lm) (SpeechMapper scaled) v1 = Ok q1 ->
  predict_quality (N:=F64 lm) (SpeechMapper scaled) v2 = Ok q2 ->
  Bleb (mean_f64 v1) (mean_f64 v2) = true -> Bleb q1 q2 = true.
Proof. exact C03_mono. Qed.
Print Assumptions C03_monotone_f64.

(** C03, exact arithmetic: strictly monotone while inside (1, 5). *)
Theorem C03_monotone_exact : forall scaled v1 v2 q1 q2,
  predict_quality (N:=RN) (SpeechMapper scaled) v1 = Ok q1 ->
  predict_quality (N:=RN) (SpeechMapper scaled) v2 = Ok q2 ->
  mean_R v1 < mean_R v2 -> q1 <= q2 /\ (1 < q1 -> q2 < 5 -> q1 < q2).
Proof. exact C03_exact. Qed.
Print Assumptions C03_monotone_exact.

Theorem C03_exact_value : forall scaled v q,
  predict_quality (N:=RN) (SpeechMapper scaled) v = Ok q ->
  q = Rmin 5 (Rmax 1 (speech_curve scaled (mean_R v))).
Proof. exact C03_exact_curve. Qed.
Print Assumptions C03_exact_value.

(** The identity is a monotone exp; two vectors of different length and mean. *)
Example C03_example :
  monotone_exp lm_id /\
  Bleb (mean_f64 [f64_lit 2 1; f64_lit 4 1]) (mean_f64 [f64_lit 9 1]) = true /\
  mean_R [1/2; 1/4] < mean_R [9/10].
Proof.
  split; [intros x y H; exact H|]. split; [vm_compute; reflexivity|].
  unfold mean_R, Rsum, zlen; simpl. lra.
Qed.

(** C04: mean similarity 1 maps to just below 5 (scaled) or about 4.156 (unscaled). *)
Theorem C04_perfect_similarity : forall scaled v q, mean_R v = 1 ->
  predict_quality (N:=RN) (SpeechMapper scaled) v = Ok q ->
  if scaled then 4.999 < q < 5 else 4.1 < q < 4.2.
Proof. exact C04_top. Qed.
Print Assumptions C04_perfect_similarity.

(** The documented equality with 5.0 fails for every vector of mean 1. *)
Theorem C04_maps_to_five_refuted : exists v q, mean_R v = 1 /\
  predict_quality (N:=RN) (SpeechMapper true) v = Ok q /\ q <> 5.
Proof. exact C04_refuted. Qed.
Print Assumptions C04_maps_to_five_refuted.

Example C04_example : mean_R [1/2; 3/2; 1] = 1.
Proof. unfold mean_R, Rsum, zlen; simpl. lra. Qed.
