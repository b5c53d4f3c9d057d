(** C13 in binary64: the correlation search up to rounding. *)
From Coq Require Import Reals Lra Lia.
From Flocq Require Import Core IEEE754.BinarySingleNaN.
From Verif Require Import Base Num F64 RNum M_Align Spec3 Spec15 P_F64 P_Win P_XcorrF P_FftTrue.
Open Scope R_scope.

(** C13: for every library with an accurate Fourier transform and binary logarithm, the
    search succeeds, and no lag has a correlation larger in magnitude than the returned
    one by more than 2^-38 of the product of the sums of magnitudes (and 2^-880). *)
Theorem C13_best_lag_f64 : forall pf lm (s1 s2 : list f64), fft_close lm -> log2_close lm ->
  Forall (fun x => is_finite x = true) s1 -> Forall (fun x => is_finite x = true) s2 ->
  magnitude s1 <= bpow radix2 50 -> magnitude s2 <= bpow radix2 50 ->
  let L := Z.max (zlen s1) (zlen s2) in (9 <= L <= 2 ^ 30)%Z ->
  exists lag, calculate_best_lag (N:=F64 lm) pf s1 s2 = Ok (Some lag) /\ (- (L - 1) <= lag <= L - 1)%Z /\
    forall k, (- (L - 1) <= k <= L - 1)%Z ->
      Rabs (correlation (values s1) (values s2) k) <=
      Rabs (correlation (values s1) (values s2) lag) + (bpow radix2 (-38) * (magnitude s1 * magnitude s2) + bpow radix2 (-880)).
Proof. exact best_lag_F. Qed.
Print Assumptions C13_best_lag_f64.

(** C13: so a peak that leads by more than that is found exactly. *)
Theorem C13_clear_peak_f64 : forall pf lm (s1 s2 : list f64) k, fft_close lm -> log2_close lm ->
  Forall (fun x => is_finite x = true) s1 -> Forall (fun x => is_finite x = true) s2 ->
  magnitude s1 <= bpow radix2 50 -> magnitude s2 <= bpow radix2 50 ->
  let L := Z.max (zlen s1) (zlen s2) in (9 <= L <= 2 ^ 30)%Z -> (- (L - 1) <= k <= L - 1)%Z ->
  (forall j, (- (L - 1) <= j <= L - 1)%Z -> j <> k ->
    Rabs (correlation (values s1) (values s2) j) + (bpow radix2 (-38) * (magnitude s1 * magnitude s2) + bpow radix2 (-880)) <
    Rabs (correlation (values s1) (values s2) k)) ->
  calculate_best_lag (N:=F64 lm) pf s1 s2 = Ok (Some k).
Proof. exact unique_lag_F. Qed.
Print Assumptions C13_clear_peak_f64.

(** An accurate library, and an echo that every such library finds. *)
Definition echo_f64 : list f64 := map f64_ofZ [0; 0; 3; 0; 0; 0; 0; 0; 0]%Z.
Definition click_f64 : list f64 := map f64_ofZ [1; 0; 0; 0; 0; 0; 0; 0; 0]%Z.
Example C13_f64_example : fft_close lm_fourier /\ log2_close lm_fourier /\
  forall pf lm, fft_close lm -> log2_close lm ->
    calculate_best_lag (N:=F64 lm) pf echo_f64 click_f64 = Ok (Some 2%Z) /\ calculate_best_lag (N:=F64 lm) pf click_f64 echo_f64 = Ok (Some (-2)%Z).
Proof.
  split; [exact fourier_fft|]. split; [exact fourier_log2|]. intros pf lm FC LC.
  assert (XE : values echo_f64 = [0; 0; 3; 0; 0; 0; 0; 0; 0]) by (unfold values, echo_f64; cbn [map]; rewrite !ofZ_B2R by lia; reflexivity).
  assert (XC : values click_f64 = [1; 0; 0; 0; 0; 0; 0; 0; 0]) by (unfold values, click_f64; cbn [map]; rewrite !ofZ_B2R by lia; reflexivity).
  assert (ME : magnitude echo_f64 = 3) by (unfold magnitude, echo_f64; cbn [map]; rewrite !ofZ_B2R by lia; rewrite !Rabs_R0, (Rabs_pos_eq 3) by lra; cbv - [Rplus IZR]; ring).
  assert (MC : magnitude click_f64 = 1) by (unfold magnitude, click_f64; cbn [map]; rewrite !ofZ_B2R by lia; rewrite !Rabs_R0, (Rabs_pos_eq 1) by lra; cbv - [Rplus IZR]; ring).
  assert (FE : Forall (fun x => is_finite x = true) echo_f64) by (repeat constructor).
  assert (FK : Forall (fun x => is_finite x = true) click_f64) by (repeat constructor).
  assert (B50 : 3 <= bpow radix2 50) by (rewrite (bp 50 (2 ^ 50)) by (reflexivity || lia); apply (IZR_le 3); lia).
  assert (B34 : bpow radix2 (-38) = / 274877906944) by (apply (bpn 38); reflexivity || lia).
  assert (B88 : bpow radix2 (-880) <= / 274877906944) by (rewrite <- B34; apply bpow_le; lia).
  assert (V : forall k, (-8 <= k <= 8)%Z -> correlation (values echo_f64) (values click_f64) k = if (k =? 2)%Z then 3 else 0).
  { rewrite XE, XC. intros k Hk.
    assert (k = -8 \/ k = -7 \/ k = -6 \/ k = -5 \/ k = -4 \/ k = -3 \/ k = -2 \/ k = -1 \/ k = 0 \/ k = 1 \/ k = 2
            \/ k = 3 \/ k = 4 \/ k = 5 \/ k = 6 \/ k = 7 \/ k = 8)%Z as C by lia.
    repeat destruct C as [-> |C]; try rewrite C; cbv - [Rplus Rmult IZR]; lra. }
  assert (V' : forall k, (-8 <= k <= 8)%Z -> correlation (values click_f64) (values echo_f64) k = if (k =? -2)%Z then 3 else 0).
  { rewrite XE, XC. intros k Hk.
    assert (k = -8 \/ k = -7 \/ k = -6 \/ k = -5 \/ k = -4 \/ k = -3 \/ k = -2 \/ k = -1 \/ k = 0 \/ k = 1 \/ k = 2
            \/ k = 3 \/ k = 4 \/ k = 5 \/ k = 6 \/ k = 7 \/ k = 8)%Z as C by lia.
    repeat destruct C as [-> |C]; try rewrite C; cbv - [Rplus Rmult IZR]; lra. }
  split; apply C13_clear_peak_f64; auto; rewrite ?ME, ?MC; try lra; try (change (Z.max _ _) with 9%Z; lia);
    change (Z.max _ _) with 9%Z; intros j Hj D.
  - rewrite !V by lia. destruct (Z.eqb_spec j 2); [contradiction|]. cbn [Z.eqb Pos.eqb]. rewrite Rabs_R0, Rabs_pos_eq by lra. rewrite B34. lra.
  - rewrite !V' by lia. destruct (Z.eqb_spec j (-2)); [contradiction|]. cbn [Z.eqb Pos.eqb]. rewrite Rabs_R0, Rabs_pos_eq by lra. rewrite B34. lra.
Qed.

(** C14: from two to eight samples only the lags 0..L-1 are searched; a negative lag can be
    returned only if all of their correlations vanish up to rounding. *)
Theorem C14_short_signals_f64 : forall pf lm (s1 s2 : list f64), fft_close lm -> log2_close lm ->
  Forall (fun x => is_finite x = true) s1 -> Forall (fun x => is_finite x = true) s2 ->
  magnitude s1 <= bpow radix2 50 -> magnitude s2 <= bpow radix2 50 ->
  let L := Z.max (zlen s1) (zlen s2) in (2 <= L <= 8)%Z ->
  exists lag, calculate_best_lag (N:=F64 lm) pf s1 s2 = Ok (Some lag) /\ (- (L - 1) <= lag <= L - 1)%Z /\
    forall k, (0 <= k <= L - 1)%Z ->
      Rabs (correlation (values s1) (values s2) k) <=
      (if (0 <=? lag)%Z then Rabs (correlation (values s1) (values s2) lag) else 0) +
      (bpow radix2 (-38) * (magnitude s1 * magnitude s2) + bpow radix2 (-880)).
Proof. exact short_lag_F. Qed.
Print Assumptions C14_short_signals_f64.

(** C14: the search misses the best lag on (1, 0) against (1, 2), with every accurate library. *)
Theorem C14_best_lag_refuted_f64 : exists s1 s2 : list f64,
  Forall (fun x => is_finite x = true) s1 /\ Forall (fun x => is_finite x = true) s2 /\ zlen s1 = 2%Z /\ zlen s2 = 2%Z /\
  forall pf lm, fft_close lm -> log2_close lm ->
    calculate_best_lag (N:=F64 lm) pf s1 s2 = Ok (Some 0%Z) /\
    Rabs (correlation (values s1) (values s2) 0) = 1 /\ Rabs (correlation (values s1) (values s2) (-1)) = 2.
Proof. exact short_lag_witness_F. Qed.
Print Assumptions C14_best_lag_refuted_f64.
