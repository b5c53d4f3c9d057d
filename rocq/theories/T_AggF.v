(** C38, C04 and C61 in binary64: averages and wideband scores up to rounding. *)
From Coq Require Import Reals Lra Lia.
From Flocq Require Import Core IEEE754.BinarySingleNaN.
From Verif Require Import Base Num F64 M_Audio M_Nsim M_Visqol Spec Spec14 P_Base P_F64 P_Libm P_AggF.
Open Scope R_scope.

(** C38: the similarity of a band is the mean over the patches up to 2^-30, if no patch
    reports a number that is not finite or above 2. *)
Theorem C38_averages_f64 : forall pf lm nb files (m m' : Manager (F64 lm)) a b r,
  run pf nb files m a b = (m', Ok r) -> (1 <= nb <= 1024)%nat -> (zlen (patch_sims r) <= 2 ^ 20)%Z ->
  Forall (fun p : PatchSim (F64 lm) => Forall similarity_like (freq_band_means p)) (patch_sims r) ->
  forall k d, (k < nb)%nat -> is_finite (nth k (fvnsim r) d : f64) = true /\
    Rabs (B2R (nth k (fvnsim r) d : f64) - mean_R (map (fun p : PatchSim (F64 lm) => B2R (nth k (freq_band_means p) d : f64)) (patch_sims r))) <= bpow radix2 (-30).
Proof. exact averages_f64. Qed.
Print Assumptions C38_averages_f64.

(** C38: the overall similarity is the mean over the bands up to 2^-40. *)
Theorem C38_overall_f64 : forall pf lm nb files (m m' : Manager (F64 lm)) a b r,
  run pf nb files m a b = (m', Ok r) -> (1 <= nb <= 1024)%nat -> Forall similarity_like (fvnsim r) ->
  is_finite (vnsim r : f64) = true /\
  Rabs (B2R (vnsim r : f64) - mean_R (map (fun x : f64 => B2R x) (fvnsim r))) <= bpow radix2 (-40).
Proof. intros pf lm nb files m m' a b r H Hn HF. exact (proj1 (overall_f64 pf lm nb files m m' a b r H Hn HF)). Qed.
Print Assumptions C38_overall_f64.

(** C04: the mapping gives the curve at the mean, up to 2^-24, for every library with an
    accurate exponential. *)
Theorem C04_mapping_f64 : forall lm scaled (v : list f64), exp_close lm -> (1 <= zlen v <= 1024)%Z -> Forall similarity_like v ->
  exists q : f64, predict_quality (N:=F64 lm) (SpeechMapper scaled) v = Ok q /\ is_finite q = true /\
    Rabs (B2R q - wideband_score scaled (mean_R (map (fun x : f64 => B2R x) v))) <= bpow radix2 (-24).
Proof. exact map_f64. Qed.
Print Assumptions C04_mapping_f64.

(** C04: a mean of 1 gives just below 5 (scaled) or about 4.156, not 5. *)
Theorem C04_perfect_similarity_f64 : forall lm scaled (v : list f64) q, exp_close lm -> (1 <= zlen v <= 1024)%Z -> Forall similarity_like v ->
  mean_R (map (fun x : f64 => B2R x) v) = 1 -> predict_quality (N:=F64 lm) (SpeechMapper scaled) v = Ok q ->
  if scaled then 4.999 < B2R (q : f64) < 5 else 4.1 < B2R (q : f64) < 4.2.
Proof. exact top_f64. Qed.
Print Assumptions C04_perfect_similarity_f64.

(** C04: the reported score is the curve at the reported similarity up to 2^-24, or 1
    below 0.15. *)
Theorem C04_reported_score_f64 : forall pf lm nb u w files (m m' : Manager (F64 lm)) calls a b r, exp_close lm ->
  new_manager nb (Wideband u) w = Ok m -> run pf nb files (after_calls pf nb m calls) a b = (m', Ok r) ->
  (1 <= nb <= 1024)%nat -> Forall similarity_like (fvnsim r) ->
  is_finite (moslqo r : f64) = true /\ is_finite (vnsim r : f64) = true /\
  if Bltb (vnsim r) (f64_lit 15 2) then B2R (moslqo r : f64) = 1
  else Rabs (B2R (moslqo r : f64) - wideband_score (negb u) (B2R (vnsim r : f64))) <= bpow radix2 (-24).
Proof. exact score_f64. Qed.
Print Assumptions C04_reported_score_f64.

(** C61: no score lies between 1 and 1.21 (1.45 when scaled). *)
Theorem C61_gap_f64 : forall pf lm nb u w files (m m' : Manager (F64 lm)) calls a b r, exp_close lm ->
  new_manager nb (Wideband u) w = Ok m -> run pf nb files (after_calls pf nb m calls) a b = (m', Ok r) ->
  (1 <= nb <= 1024)%nat -> Forall similarity_like (fvnsim r) ->
  B2R (moslqo r : f64) = 1 \/ (if u then 1.21 else 1.45) < B2R (moslqo r : f64).
Proof. exact gap_f64. Qed.
Print Assumptions C61_gap_f64.

(** A library with an accurate exponential, and similarities 1, 1/2, 3/4 with it. *)
Example C04_f64_example : exp_close lm_true /\ Forall similarity_like [f64_ofZ 1; f64_lit 5 1; f64_lit 75 2] /\
  exists q : f64, predict_quality (N:=F64 lm_true) (SpeechMapper true) [f64_ofZ 1; f64_lit 5 1; f64_lit 75 2] = Ok q /\ is_finite q = true.
Proof.
  split; [exact true_exp|].
  assert (S : Forall similarity_like [f64_ofZ 1; f64_lit 5 1; f64_lit 75 2]).
  { assert (L : forall m k, (Z.abs m <= 2 ^ 53)%Z -> (0 <= k <= 15)%Z -> Rabs (IZR m / IZR (10 ^ k)) <= 1 -> similarity_like (f64_lit m k)).
    { intros m k H1 H2 H3. destruct (lit_ap m k _ 0 H1 H2 ltac:(lia) eq_refl H3) as [F E]. split; [exact F|].
      assert (bpow radix2 (0 - 53) <= 1) by (apply (bpow_le radix2 _ 0); lia). apply Rabs_le_inv in H3, E. apply Rabs_le. lra. }
    constructor; [split; [apply ofZ_fin; lia|rewrite ofZ_B2R by lia; rewrite Rabs_pos_eq; lra]|].
    constructor; [apply L; [lia|lia|cbn; rewrite Rabs_pos_eq; lra]|]. constructor; [apply L; [lia|lia|cbn; rewrite Rabs_pos_eq; lra]|constructor]. }
  split; [exact S|]. destruct (C04_mapping_f64 lm_true true [f64_ofZ 1; f64_lit 5 1; f64_lit 75 2] true_exp ltac:(unfold zlen; cbn [List.length]; lia) S) as (q & H & F & _). exists q. auto.
Qed.
