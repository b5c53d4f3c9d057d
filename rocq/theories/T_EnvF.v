(** C15 in binary64: the upper envelope up to rounding. *)
From Coq Require Import Reals Lra Lia.
From Flocq Require Import Core IEEE754.BinarySingleNaN.
From Verif Require Import Base Num F64 RNum M_Audio M_Align Spec3 Spec15 P_F64 P_XcorrF P_FftTrue P_EnvF.
Open Scope R_scope.

(** C15: for every library with an accurate Fourier transform and hypotenuse, the envelope
    of a signal of [n] samples is the closed form of the exact one, up to [n] times 2^-37. *)
Theorem C15_envelope_f64 : forall pf lm (x : list f64), fft_close lm -> hypot_close lm ->
  Forall (fun v => is_finite v = true /\ Rabs (B2R v) <= 1) x -> (2 <= zlen x <= 2 ^ 20)%Z ->
  exists p env, next_pow_two pf (zlen x) = Ok p /\
    calculate_upper_env (N:=F64 lm) pf x = Ok (Some env) /\
    List.length env = List.length x /\
    let f := Z.max p 32 in let xs := values x in
    forall i, (i < List.length x)%nat ->
      is_finite (nth i env (f64_ofZ 0)) = true /\
      Rabs (B2R (nth i env (f64_ofZ 0)) -
        (Rabs (2 * (centred xs i - deficit f (zlen x) * middle_bin f xs i) - 1 / 1000000) + mean_signal xs)) <=
      bpow radix2 (-37) * IZR (zlen x).
Proof. exact envelope_F. Qed.
Print Assumptions C15_envelope_f64.

(** C15: for 2^k samples each value depends on the sample at its own position and the mean. *)
Theorem C15_pointwise_f64 : forall pf lm (x : list f64) k, fft_close lm -> hypot_close lm ->
  Forall (fun v => is_finite v = true /\ Rabs (B2R v) <= 1) x -> (5 <= k <= 20)%Z -> zlen x = (2 ^ k)%Z ->
  exists env, calculate_upper_env (N:=F64 lm) pf x = Ok (Some env) /\ List.length env = List.length x /\
    forall i, (i < List.length x)%nat -> is_finite (nth i env (f64_ofZ 0)) = true /\
      Rabs (B2R (nth i env (f64_ofZ 0)) -
        (Rabs (2 * (nth i (values x) 0 - mean_signal (values x)) - 1 / 1000000) + mean_signal (values x))) <=
      bpow radix2 (-37) * IZR (zlen x).
Proof. exact envelope_pow2_F. Qed.
Print Assumptions C15_pointwise_f64.

(** C15: no accurate library makes it the modulus of the analytic signal: a tone of constant
    modulus 1 gets about 2 at its first sample and about 0 at its second. *)
Theorem C15_hilbert_refuted_f64 : exists (x : list f64) z, zlen x = 32%Z /\ analytic z (values x) /\
  (forall i, (i < 32)%nat -> modulus (nth i z (0, 0)) = 1) /\
  forall pf lm, fft_close lm -> hypot_close lm -> exists env, calculate_upper_env (N:=F64 lm) pf x = Ok (Some env) /\
    Rabs (B2R (nth 0 env (f64_ofZ 0)) - 2) <= / 100000 /\ Rabs (B2R (nth 1 env (f64_ofZ 0))) <= / 100000.
Proof. exact tone_witness_F. Qed.
Print Assumptions C15_hilbert_refuted_f64.

(** A library and signals that meet the hypotheses. *)
Example C15_f64_example : fft_close lm_fourier /\ hypot_close lm_fourier /\
  Forall (fun v => is_finite v = true /\ Rabs (B2R v) <= 1) (map f64_ofZ [1; 0; 0]%Z) /\
  (2 <= zlen (map f64_ofZ [1; 0; 0]%Z) <= 2 ^ 20)%Z /\
  Forall (fun v => is_finite v = true /\ Rabs (B2R v) <= 1) tone_f64 /\ zlen tone_f64 = (2 ^ 5)%Z.
Proof.
  split; [exact fourier_fft|]. split; [exact fourier_hypot|].
  assert (Q : forall l, Forall (fun v => Z.abs v <= 1)%Z l -> Forall (fun v => is_finite v = true /\ Rabs (B2R v) <= 1) (map f64_ofZ l)).
  { intros l H. apply Forall_map. eapply Forall_impl; [|exact H]. intros v Hv. cbv beta in Hv. destruct (ofZ_exact v ltac:(lia)) as [F E].
    split; [exact F|]. rewrite E, <- abs_IZR. apply (IZR_le _ 1). exact Hv. }
  split; [apply Q; repeat constructor; vm_compute; discriminate|]. split; [vm_compute; split; discriminate|]. split; [apply Q; unfold tone_f64; repeat constructor; vm_compute; discriminate|reflexivity].
Qed.
