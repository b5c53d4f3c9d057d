(** C75 (and C55 in binary64): the global alignment follows the best lag of the envelopes. *)
From Coq Require Import Reals Lra Lia List ZArith.
From Flocq Require Import Core IEEE754.BinarySingleNaN.
From Verif Require Import Base Num F64 RNum M_Audio M_Align Spec3 Spec15 Spec16 P_F64 P_Win P_XcorrF P_FftTrue P_DelayT P_AlignF.
Import ListNotations.
Open Scope R_scope.

(** C75: in exact arithmetic the degraded recording is moved by the lag at which the
    envelopes of the recordings correlate most in magnitude (the smallest of several with
    the same correlation), unless that is more than half of the reference. *)
Theorem C75_follows_best_lag : forall pf (rs ds : AudioSignal RN) p1 p2,
  let x1 : list R := data_matrix rs in let x2 : list R := data_matrix ds in
  (1 <= zlen x1 <= 2 ^ 62)%Z -> (1 <= zlen x2 <= 2 ^ 62)%Z ->
  next_pow_two pf (zlen x1) = Ok p1 -> next_pow_two pf (zlen x2) = Ok p2 ->
  let L := Z.max (zlen x1) (zlen x2) in (9 <= L)%Z ->
  let E1 := envelope (Z.max p1 32) x1 in let E2 := envelope (Z.max p2 32) x2 in
  exists lag, (- (L - 1) <= lag <= L - 1)%Z /\
    (forall k, (- (L - 1) <= k <= L - 1)%Z -> Rabs (correlation E1 E2 k) <= Rabs (correlation E1 E2 lag)) /\
    (forall k, (- (L - 1) <= k < lag)%Z -> correlation E1 E2 k <> correlation E1 E2 lag) /\
    globally_align pf rs ds = Ok (Some (if followed (zlen x1) lag
      then (@Build_AudioSignal RN (moved 0 lag x2) (sample_rate ds), IZR lag / IZR (sample_rate ds))
      else (ds, 0))).
Proof. exact align_R. Qed.
Print Assumptions C75_follows_best_lag.

(** C75: in binary64, with an accurate library and samples of magnitude up to 1, no lag of the
    exact envelopes beats the one that is followed by more than 2^-29 times the square of the
    longer length. *)
Theorem C75_follows_best_lag_f64 : forall pf lm (rs ds : AudioSignal (F64 lm)) p1 p2,
  fft_close lm -> log2_close lm -> hypot_close lm ->
  let x1 : list f64 := data_matrix rs in let x2 : list f64 := data_matrix ds in
  Forall (fun v => is_finite v = true /\ Rabs (B2R v) <= 1) x1 -> Forall (fun v => is_finite v = true /\ Rabs (B2R v) <= 1) x2 ->
  (2 <= zlen x1 <= 2 ^ 20)%Z -> (2 <= zlen x2 <= 2 ^ 20)%Z -> (zlen x1 / 2 <= zlen x2)%Z ->
  next_pow_two pf (zlen x1) = Ok p1 -> next_pow_two pf (zlen x2) = Ok p2 ->
  let L := Z.max (zlen x1) (zlen x2) in (9 <= L)%Z ->
  let E1 := envelope (Z.max p1 32) (values x1) in let E2 := envelope (Z.max p2 32) (values x2) in
  exists lag, (- (L - 1) <= lag <= L - 1)%Z /\
    (forall k, (- (L - 1) <= k <= L - 1)%Z ->
      Rabs (correlation E1 E2 k) <= Rabs (correlation E1 E2 lag) + bpow radix2 (-29) * (IZR L * IZR L)) /\
    globally_align pf rs ds = Ok (Some (if followed (zlen x1) lag
      then (@Build_AudioSignal (F64 lm) (moved (f64_ofZ 0) lag x2) (sample_rate ds), Bdiv mode_NE (f64_ofZ lag) (f64_ofZ (sample_rate ds)))
      else (ds, f64_ofZ 0))).
Proof. exact align_F. Qed.
Print Assumptions C75_follows_best_lag_f64.

(** C75: so a lag that leads by more than that, at which the recordings overlap, is the one
    that is followed. *)
Theorem C75_clear_lag_f64 : forall pf lm (rs ds : AudioSignal (F64 lm)) p1 p2 k,
  fft_close lm -> log2_close lm -> hypot_close lm ->
  let x1 : list f64 := data_matrix rs in let x2 : list f64 := data_matrix ds in
  Forall (fun v => is_finite v = true /\ Rabs (B2R v) <= 1) x1 -> Forall (fun v => is_finite v = true /\ Rabs (B2R v) <= 1) x2 ->
  (2 <= zlen x1 <= 2 ^ 20)%Z -> (2 <= zlen x2 <= 2 ^ 20)%Z ->
  next_pow_two pf (zlen x1) = Ok p1 -> next_pow_two pf (zlen x2) = Ok p2 ->
  let L := Z.max (zlen x1) (zlen x2) in (9 <= L)%Z -> (- zlen x2 < k < zlen x1)%Z ->
  let E1 := envelope (Z.max p1 32) (values x1) in let E2 := envelope (Z.max p2 32) (values x2) in
  (forall j, (- (L - 1) <= j <= L - 1)%Z -> j <> k ->
    Rabs (correlation E1 E2 j) + bpow radix2 (-29) * (IZR L * IZR L) < Rabs (correlation E1 E2 k)) ->
  globally_align pf rs ds = Ok (Some (if followed (zlen x1) k
    then (@Build_AudioSignal (F64 lm) (moved (f64_ofZ 0) k x2) (sample_rate ds), Bdiv mode_NE (f64_ofZ k) (f64_ofZ (sample_rate ds)))
    else (ds, f64_ofZ 0))).
Proof. exact align_clear_F. Qed.
Print Assumptions C75_clear_lag_f64.

(** C55 in binary64: a delayed copy of up to 2^20 samples with one sample that is loud for
    that length. *)
Theorem C55_delay_is_undone_f64 : forall pf lm (y : list f64) (k : nat) L f v rate,
  fft_close lm -> log2_close lm -> hypot_close lm ->
  (9 <= L <= 2 ^ 20)%Z -> next_pow_two pf L = Ok f -> Z.even (Z.max f 32) = true ->
  (zlen y + Z.of_nat k = L)%Z -> (1 <= Z.of_nat k <= L / 2)%Z ->
  Forall (fun v => is_finite v = true /\ Rabs (B2R v) <= 1) y ->
  Rsum (values y) = 0 -> alternating (values y) = 0 -> Forall (fun x => x <= 0 \/ 1 / 1000000 <= x) (values y) ->
  In v (values y) -> bpow radix2 (-28) * (IZR L * IZR L * IZR L) <= v * v ->
  let early := @Build_AudioSignal (F64 lm) (y ++ repeat (f64_ofZ 0) k) rate in
  let late := @Build_AudioSignal (F64 lm) (repeat (f64_ofZ 0) k ++ y) rate in
  globally_align pf early late = Ok (Some (@Build_AudioSignal (F64 lm) y rate, Bdiv mode_NE (f64_ofZ (- Z.of_nat k)) (f64_ofZ rate))) /\
  globally_align pf late early =
    Ok (Some (@Build_AudioSignal (F64 lm) (repeat (f64_ofZ 0) k ++ y ++ repeat (f64_ofZ 0) k) rate, Bdiv mode_NE (f64_ofZ (Z.of_nat k)) (f64_ofZ rate))).
Proof. exact delay_any_F. Qed.
Print Assumptions C55_delay_is_undone_f64.

(** A click that meets the hypotheses of all of these: every accurate library undoes its delay. *)
Definition click300 : list f64 := map f64_ofZ ([1; 0; -1] ++ repeat 0 297)%Z.
Example C75_example : fft_close lm_fourier /\ log2_close lm_fourier /\ hypot_close lm_fourier /\
  forall pf lm rate, fft_close lm -> log2_close lm -> hypot_close lm ->
    globally_align pf (@Build_AudioSignal (F64 lm) (click300 ++ repeat (f64_ofZ 0) 100) rate) (@Build_AudioSignal (F64 lm) (repeat (f64_ofZ 0) 100 ++ click300) rate) =
      Ok (Some (@Build_AudioSignal (F64 lm) click300 rate, Bdiv mode_NE (f64_ofZ (-100)) (f64_ofZ rate))).
Proof.
  split; [exact fourier_fft|]. split; [exact fourier_log2|]. split; [exact fourier_hypot|]. intros pf lm rate FC LC HC.
  assert (V : values click300 = [1; 0; -1] ++ repeat 0 297).
  { assert (Q : forall n, map (fun x => B2R (f64_ofZ x)) (repeat 0%Z n) = repeat 0 n) by (induction n; cbn [repeat map]; [reflexivity|rewrite IHn, ofZ_B2R by lia; reflexivity]).
    unfold values, click300. rewrite map_map, map_app, Q. cbn [map]. rewrite !ofZ_B2R by lia. reflexivity. }
  assert (ZL : zlen click300 = 300%Z) by reflexivity.
  assert (NP : next_pow_two pf 400 = Ok 512%Z) by (destruct pf; reflexivity).
  assert (B28 : bpow radix2 (-28) = / 268435456) by (apply (bpn 28); reflexivity || lia).
  apply (C55_delay_is_undone_f64 pf lm click300 100 400 512 1 rate FC LC HC);
    [lia|exact NP|reflexivity|rewrite ZL; reflexivity|split; vm_compute; discriminate| | | | | | ].
  - unfold click300. apply Forall_map. apply Forall_app. split.
    + assert (S : forall x, (-1 <= x <= 1)%Z -> is_finite (f64_ofZ x) = true /\ Rabs (B2R (f64_ofZ x)) <= 1).
      { intros x Hx. destruct (ofZ_exact x ltac:(lia)) as [F E]. split; [exact F|]. rewrite E, <- abs_IZR. apply (IZR_le _ 1). lia. }
      apply Forall_cons; [apply S; lia|]. apply Forall_cons; [apply S; lia|]. apply Forall_cons; [apply S; lia|]. apply Forall_nil.
    + apply Forall_forall. intros x Hx. apply repeat_spec in Hx. subst x. split; [reflexivity|]. rewrite ofZ_B2R by lia. rewrite Rabs_R0. lra.
  - rewrite V, P_R.Rsum_app, P_Delay.Rsum_zeros. unfold Rsum. cbn [fold_right]. lra.
  - rewrite V. cbn [app]. rewrite !P_Delay.alternating_cons, alternating_zeros. lra.
  - rewrite V. apply Forall_app. split; [repeat constructor; lra|]. apply Forall_forall. intros x Hx. apply repeat_spec in Hx. lra.
  - rewrite V. left. reflexivity.
  - rewrite B28. lra.
Qed.
