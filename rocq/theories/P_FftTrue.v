(** A library whose Fourier transform and binary logarithm are rounded correctly. *)
From Coq Require Import Reals Lra Lia.
From Flocq Require Import Core IEEE754.BinarySingleNaN.
From Verif Require Import Base Num F64 RNum P_Base P_F64 P_R P_Dft P_Win P_NsimF P_LevelF Spec3 Spec15 P_Xcorr P_XcorrF P_Libm.
Open Scope R_scope.

Definition lm_fourier : Libm := {|
  lm_exp := lm_exp lm_true; lm_ln := lm_ln lm_true; lm_log10 := lm_log10 lm_true; lm_log2 := lm_log2 lm_true;
  lm_sin := lm_sin lm_true; lm_cos := lm_cos lm_true; lm_sinh := lm_sinh lm_true; lm_cosh := lm_cosh lm_true;
  lm_powf := lm_powf lm_true; lm_hypot := fun x y => toF (R_sqrt.sqrt (B2R x * B2R x + B2R y * B2R y)); lm_atan2 := lm_atan2 lm_true;
  lm_fft := fun inverse l => map (fun z => (toF (fst z), toF (snd z))) (dft inverse (map cval l)) |}.
Lemma fourier_log2 : log2_close lm_fourier.
Proof.
  intros x F [H1 H2]. cbn [lm_log2 lm_fourier lm_true]. pose proof ln2_bnd as L2.
  assert (L : Rabs (ln (B2R x) / ln 2) <= 32).
  { assert (E : ln (bpow radix2 32) = 32 * ln 2) by (rewrite (bp 32 (2 ^ 32)) by (reflexivity || lia); apply (ln_pow2 32); lia).
    assert (U : ln (B2R x) <= 32 * ln 2). { rewrite <- E. destruct (Rle_lt_or_eq_dec _ _ H2) as [K|K]; [left; apply ln_increasing; lra|rewrite K; lra]. }
    assert (W : 0 <= ln (B2R x)). { rewrite <- ln_1. destruct (Rle_lt_or_eq_dec _ _ H1) as [K|K]; [left; apply ln_increasing; lra|rewrite <- K; lra]. }
    rewrite Rabs_pos_eq by (apply Rmult_le_pos; [exact W|left; apply Rinv_0_lt_compat; lra]).
    apply Rmult_le_reg_r with (ln 2); [lra|]. unfold Rdiv. rewrite Rmult_assoc, Rinv_l, Rmult_1_r by lra. exact U. }
  set (r := ln (B2R x) / ln 2) in *.
  destruct (ap_rnd r r 0 6 ltac:(lia)) as [A B]; [rewrite Rminus_diag_eq, Rabs_R0 by reflexivity; lra|change (bpow radix2 6) with 64; lra|].
  destruct (toF_ok r A) as [G E]. split; [exact G|]. rewrite E. eapply Rle_trans; [exact B|]. rewrite Rplus_0_l. apply bpow_le. lia.
Qed.
Lemma toF_near r s : Rabs r <= s -> s <= bpow radix2 900 -> is_finite (toF r) = true /\ Rabs (B2R (toF r) - r) <= bpow radix2 (-44) * s + bpow radix2 (-950).
Proof.
  intros H1 H2. assert (A : Rabs (rnd r) < big) by (apply no_over; apply Rle_trans with (bpow radix2 900); [lra|apply bpow_le; lia]).
  destruct (toF_ok r A) as [F E]. split; [exact F|]. rewrite E. pose proof (rnd_any r) as Q. fold dd hh. rewrite dd_val. rewrite uu_val in Q. pose proof (Rabs_pos r). lra.
Qed.
Lemma fourier_fft : fft_close lm_fourier.
Proof.
  intros inverse l Hn HF HS. cbn [lm_fft lm_fourier].
  assert (LD : List.length (dft inverse (map cval l)) = List.length l) by (rewrite dft_tab_length, map_length; reflexivity).
  split; [rewrite map_length; exact LD|]. intros k Hk.
  set (n := List.length l) in *.
  assert (CV : map cval l = map (fun i => cval (nth i l (zz, zz))) (seq 0 n)) by (rewrite (list_tab l (zz, zz)) at 1; rewrite map_map; reflexivity).
  rewrite (nth_indep _ (f64_ofZ 0, f64_ofZ 0) ((fun z : R * R => (toF (fst z), toF (snd z))) (0, 0))) by (rewrite map_length, LD; exact Hk).
  rewrite (map_nth (fun z : R * R => (toF (fst z), toF (snd z)))). cbv zeta. cbn [fst snd].
  rewrite CV, dft_tab, nth_tab_any by exact Hk. cbn [fst snd].
  assert (SZ : Sg n (fun j => Rabs (fst (cval (nth j l (zz, zz)))) + Rabs (snd (cval (nth j l (zz, zz))))) = size1 l).
  { unfold size1. transitivity (Rsum (map (fun z : f64 * f64 => Rabs (B2R (fst z)) + Rabs (B2R (snd z))) (map (fun i => nth i l (zz, zz)) (seq 0 n)))); [rewrite map_map; reflexivity|]. unfold n. rewrite <- list_tab. reflexivity. }
  destruct (dft_bnd inverse n (fun i => cval (nth i l (zz, zz))) k) as [B1 B2]. rewrite SZ in B1, B2.
  destruct (toF_near _ _ B1 HS) as [F1 E1]. destruct (toF_near _ _ B2 HS) as [F2 E2]. repeat split; assumption.
Qed.
Lemma fourier_hypot : hypot_close lm_fourier.
Proof.
  intros x y Fx Fy B. cbn [lm_hypot lm_fourier]. apply toF_near; [|exact B].
  pose proof (Rabs_pos (B2R x)). pose proof (Rabs_pos (B2R y)).
  rewrite Rabs_pos_eq by apply sqrt_pos. rewrite <- (sqrt_Rsqr (Rabs (B2R x) + Rabs (B2R y))) by lra. apply sqrt_le_1_alt. unfold Rsqr.
  rewrite <- (Rabs_pos_eq (B2R x * B2R x)), <- (Rabs_pos_eq (B2R y * B2R y)) by nra. rewrite !Rabs_mult. nra.
Qed.
