(** C08, C32 and C67 in binary64, up to rounding. *)
From Coq Require Import Reals Lra Lia.
From Flocq Require Import Core IEEE754.BinarySingleNaN.
From Verif Require Import Base Num F64 RNum M_Audio M_Spectro M_Nsim M_Visqol Spec Spec14 P_Base P_F64 P_Libm P_AggF P_MoreF P_BandsF.
Open Scope R_scope.

(** C08: with any number of channels a file can have, sample [i] is the mean over the
    channels of frame [i], up to 2^-34. *)
Theorem C08_mean_f64 : forall lm c rate vs n s i, (1 <= Z.of_nat c <= 65535)%Z -> List.length vs = (n * c)%nat ->
  Forall (fun v => -32768 <= v <= 32767)%Z vs ->
  load_as_mono (N:=F64 lm) (WavOk (Z.of_nat c) rate 16 (map Some vs)) = Ok s -> (i < n)%nat ->
  exists x : f64, nth_error (data_matrix s) i = Some x /\ is_finite x = true /\
    Rabs (B2R x - Rsum (map (fun j => IZR (nth (i * c + j) vs 0%Z) / 32767) (seq 0 c)) / INR c) <= bpow radix2 (-34).
Proof. exact C08_mean_near. Qed.
Print Assumptions C08_mean_f64.

(** C32: if the library's exponential and logarithm are accurate, the reported centre
    frequencies increase, stay below the limit, and frequency [k] is the [k]-th of the
    equally spaced ones, up to 2^-30 of its distance from -q. *)
Theorem C32_reported_frequencies_f64 : forall lm pf nb v ws (m m' : Manager (F64 lm)) calls files a b (rs : AudioSignal (F64 lm)) r,
  exp_close lm -> ln_close lm ->
  new_manager nb v ws = Ok m -> load_as_mono (files a) = Ok rs -> (102 <= sample_rate rs <= 2 ^ 24)%Z -> (nb <= 1024)%nat ->
  run pf nb files (after_calls pf nb m calls) a b = (m', Ok r) ->
  let rate := sample_rate rs in
  let upper := Rmin (IZR (if Nat.eqb nb 21 then 8000 else rate / 2)) (IZR rate / 2) in
  let c := res_center_freq_bands r in
  List.length c = nb /\
  forall d, (forall k, (k < nb)%nat -> is_finite (nth k c d : f64) = true /\ B2R (nth k c d : f64) < upper /\
     Rabs (B2R (nth k c d : f64) - erb_frequency nb upper k) <= bpow radix2 (-30) * (erb_frequency nb upper k + erb_q)) /\
  (forall i j, (i < j < nb)%nat -> B2R (nth i c d : f64) < B2R (nth j c d : f64)).
Proof. exact bands_f64. Qed.
Print Assumptions C32_reported_frequencies_f64.

(** C67: from a similarity of 0.15 on, the wideband score changes by at most 17 times
    (unscaled: 18.1 times) the change of the reported similarity, up to 2^-23 ... *)
Theorem C67_wideband_reacts_smoothly_f64 : forall lm nb u w (m m1 m2 : Manager (F64 lm)) calls1 calls2 pf files1 files2 a b c d r s,
  exp_close lm -> new_manager nb (Wideband u) w = Ok m ->
  run pf nb files1 (after_calls pf nb m calls1) a b = (m1, Ok r) -> run pf nb files2 (after_calls pf nb m calls2) c d = (m2, Ok s) ->
  (1 <= nb <= 1024)%nat -> Forall similarity_like (fvnsim r) -> Forall similarity_like (fvnsim s) ->
  Bltb (vnsim r) (f64_lit 15 2) = false -> Bltb (vnsim s) (f64_lit 15 2) = false ->
  Rabs (B2R (moslqo r : f64) - B2R (moslqo s : f64)) <= (if u then 18.1 else 17) * Rabs (B2R (vnsim r : f64) - B2R (vnsim s : f64)) + bpow radix2 (-23).
Proof. exact react_f64. Qed.
Print Assumptions C67_wideband_reacts_smoothly_f64.

(** ... but it jumps there. *)
Theorem C67_jump_at_0_15_f64 : forall lm nb u w (m m1 m2 : Manager (F64 lm)) calls1 calls2 pf files1 files2 a b c d r s,
  exp_close lm -> new_manager nb (Wideband u) w = Ok m ->
  run pf nb files1 (after_calls pf nb m calls1) a b = (m1, Ok r) -> run pf nb files2 (after_calls pf nb m calls2) c d = (m2, Ok s) ->
  (1 <= nb <= 1024)%nat -> Forall similarity_like (fvnsim r) -> Forall similarity_like (fvnsim s) ->
  Bltb (vnsim r) (f64_lit 15 2) = true -> Bltb (vnsim s) (f64_lit 15 2) = false ->
  (if u then 0.21 else 0.45) < B2R (moslqo s : f64) - B2R (moslqo r : f64).
Proof. exact jump_f64. Qed.
Print Assumptions C67_jump_at_0_15_f64.

(** A library with an accurate exponential and logarithm, and the frequencies of 32 bands up
    to 24 kHz with it. *)
Example C32_f64_example : exp_close lm_true /\ ln_close lm_true /\
  let l := calculate_uniform_center_freqs (N:=F64 lm_true) 32 (f64_ofZ 50) (f64_ofZ 24000) in
  Forall (fun x : f64 => is_finite x = true /\ B2R x < 24000) l /\ sort_num (N:=F64 lm_true) l = Ok (rev l).
Proof.
  split; [exact true_exp|]. split; [exact true_ln|].
  assert (F : is_finite (f64_ofZ 24000) = true) by (apply ofZ_fin; lia). assert (B : B2R (f64_ofZ 24000) = 24000) by (rewrite ofZ_B2R by lia; reflexivity).
  assert (R : 51 <= B2R (f64_ofZ 24000) <= 8388608) by (rewrite B; lra).
  pose proof (freqs_sorted lm_true true_exp true_ln 32 (f64_ofZ 24000) ltac:(lia) F R) as S. cbv zeta. split; [|exact S].
  apply Forall_forall. intros x Hx. split; [exact (freqs_fin lm_true true_exp true_ln 32 (f64_ofZ 24000) ltac:(lia) F R x Hx)|].
  apply (In_nth _ _ (f64_ofZ 0)) in Hx. destruct Hx as (k & Hk & <-). pose proof (freqs_len lm_true 32 (f64_ofZ 24000)) as L.
  rewrite <- B. apply (freqs_below lm_true true_exp true_ln 32 (f64_ofZ 24000) ltac:(lia) F R). rewrite <- L. exact Hk.
Qed.
(** Three frames of two channels. *)
Example C08_mean_f64_example : forall lm, exists s : AudioSignal (F64 lm), load_as_mono (WavOk 2 48000 16 (map Some [32767; -32768; 5; 7; -1; 0]%Z)) = Ok s /\
  exists x : f64, nth_error (data_matrix s) 1 = Some x /\ Rabs (B2R x - 6 / 32767) <= bpow radix2 (-34).
Proof.
  intros lm. eexists. split; [reflexivity|].
  destruct (C08_mean_f64 lm 2 48000 [32767; -32768; 5; 7; -1; 0]%Z 3 _ 1 ltac:(cbn; lia) eq_refl ltac:(repeat constructor; lia) eq_refl ltac:(lia)) as (x & E & _ & N).
  exists x. split; [exact E|]. cbn [seq map nth Nat.mul Nat.add Rsum fold_right INR] in N. replace (6 / 32767) with ((5 / 32767 + (7 / 32767 + 0)) / (1 + 1)) by lra. exact N.
Qed.
