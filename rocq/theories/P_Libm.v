(** A math library whose logarithm and power are rounded correctly. *)
From Coq Require Import Reals Lra Psatz.
From Flocq Require Import Core BinarySingleNaN Relative.
From Verif Require Import Base Num M_Audio F64 RNum P_Base P_F64 P_R P_Win Spec Spec13 P_Audio P_Audio2 P_Level P_NsimF P_LevelF Witness.
Open Scope R_scope.

(** The binary64 number nearest to [r], if there is one. *)
Definition toF (r : R) : f64 :=
  binary_normalize 53 1024 eq_refl eq_refl mode_NE (Ztrunc (scaled_mantissa radix2 fexp64 (rnd r))) (Generic_fmt.cexp radix2 fexp64 (rnd r)) false.
Lemma toF_ok r : Rabs (rnd r) < big -> is_finite (toF r) = true /\ B2R (toF r) = rnd r.
Proof.
  intros H. unfold toF.
  pose proof (binary_normalize_correct 53 1024 eq_refl eq_refl mode_NE (Ztrunc (scaled_mantissa radix2 fexp64 (rnd r))) (Generic_fmt.cexp radix2 fexp64 (rnd r)) false) as K.
  assert (G : generic_format radix2 fexp64 (rnd r)) by (apply generic_format_round; auto with typeclass_instances).
  assert (E : F2R (Float radix2 (Ztrunc (scaled_mantissa radix2 fexp64 (rnd r))) (Generic_fmt.cexp radix2 fexp64 (rnd r))) = rnd r) by (symmetry; exact G).
  cbv zeta in K. rewrite E in K. cbn [round_mode] in K. rewrite (rnd_id (rnd r) G) in K.
  rewrite Rlt_bool_true in K by exact H. destruct K as (K1 & K2 & _). split; [exact K2|exact K1].
Qed.
Definition lm_true : Libm := {|
  lm_exp := fun x => toF (exp (B2R x)); lm_ln := fun x => toF (ln (B2R x));
  lm_log10 := fun x => toF (ln (B2R x) / ln 10); lm_log2 := fun x => toF (ln (B2R x) / ln 2);
  lm_sin := fun x => toF (sin (B2R x)); lm_cos := fun x => toF (cos (B2R x)); lm_sinh := fun x => toF (sinh (B2R x)); lm_cosh := fun x => toF (cosh (B2R x));
  lm_powf := fun x y => toF (exp (B2R y * ln (B2R x)));
  lm_hypot := lm_hypot lm_ex; lm_atan2 := lm_atan2 lm_ex; lm_fft := lm_fft lm_ex |}.
Lemma true_log10 : log10_close lm_true.
Proof.
  intros x F [H1 H2]. cbn [lm_log10 lm_true].
  assert (L : Rabs (ln (B2R x) / ln 10) <= 64).
  { pose proof ln10_bnd as L. assert (P : 0 < B2R x) by (eapply Rlt_le_trans; [apply bpow_gt_0|exact H1]).
    assert (T : bpow radix2 100 <= 10 ^ 64) by (change (bpow radix2 100) with 1267650600228229401496703205376; lra).
    assert (E : ln (10 ^ 64) = 64 * ln 10) by (rewrite ln_pow by lra; cbn [INR]; ring).
    assert (U : ln (B2R x) <= 64 * ln 10). { rewrite <- E. destruct (Rle_lt_or_eq_dec (B2R x) (10 ^ 64) ltac:(lra)) as [K|K]; [left; apply ln_increasing; auto|rewrite K; lra]. }
    assert (W : - (64 * ln 10) <= ln (B2R x)).
    { rewrite <- E. rewrite <- ln_Rinv by lra. assert (I : / 10 ^ 64 <= B2R x).
      { eapply Rle_trans; [|exact H1]. change (-100)%Z with (- (100))%Z. rewrite bpow_opp. apply Rinv_le_contravar; [apply bpow_gt_0|exact T]. }
      destruct (Rle_lt_or_eq_dec _ _ I) as [K|K]; [left; apply ln_increasing; [apply Rinv_0_lt_compat; lra|exact K]|rewrite K; lra]. }
    apply Rabs_le. split; apply Rmult_le_reg_r with (ln 10); try lra; unfold Rdiv; rewrite ?Rmult_assoc, ?Rinv_l, ?Rmult_1_r by lra; lra. }
  set (r := ln (B2R x) / ln 10) in *.
  destruct (ap_rnd r r 0 6 ltac:(lia)) as [A B]; [rewrite Rminus_diag_eq, Rabs_R0 by reflexivity; lra|change (bpow radix2 6) with 64; lra|].
  destruct (toF_ok r A) as [G E]. split; [exact G|]. rewrite E. eapply Rle_trans; [exact B|]. rewrite Rplus_0_l. apply bpow_le. lia.
Qed.
Lemma true_pow10 : pow10_close lm_true.
Proof.
  intros y F H. cbn [lm_powf lm_true]. rewrite ofZ_B2R by lia. set (r := exp (B2R y * ln 10)).
  pose proof ln10_bnd as L. apply Rabs_le_inv in H.
  assert (T : bpow radix2 0 <= 10) by (cbn; lra).
  assert (EE : exp (40 * ln 10) = 10 ^ 40) by (replace (40 * ln 10) with (ln (10 ^ 40)) by (rewrite ln_pow by lra; cbn [INR]; ring); apply exp_ln; lra).
  assert (M1 : r <= 10 ^ 40). { rewrite <- EE. unfold r. destruct (Rle_lt_or_eq_dec (B2R y * ln 10) (40 * ln 10) ltac:(nra)) as [K|K]; [left; apply exp_increasing; exact K|rewrite K; lra]. }
  assert (M2 : / 10 ^ 40 <= r). { rewrite <- EE, <- exp_Ropp. unfold r. destruct (Rle_lt_or_eq_dec (- (40 * ln 10)) (B2R y * ln 10) ltac:(nra)) as [K|K]; [left; apply exp_increasing; exact K|rewrite K; lra]. }
  assert (MB : bpow radix2 (-140) <= r <= bpow radix2 140).
  { split.
    - eapply Rle_trans; [|exact M2]. change (-140)%Z with (- (140))%Z. rewrite bpow_opp. apply Rinv_le_contravar; [lra|]. change (bpow radix2 140) with 1393796574908163946345982392040522594123776. lra.
    - eapply Rle_trans; [exact M1|]. change (bpow radix2 140) with 1393796574908163946345982392040522594123776. lra. }
  assert (P : 0 < r) by apply exp_pos.
  destruct (rl_rnd r r 0 (mid_in (-140) 140 _ ltac:(lia) ltac:(lia) MB) ltac:(lra)) as [A B]; [rewrite Rminus_diag_eq, Rabs_R0 by reflexivity; lra|].
  destruct (toF_ok r A) as [G E]. split; [exact G|]. rewrite E. eapply Rle_trans; [exact B|]. apply Rmult_le_compat_r; [lra|]. rewrite bm40, uu_val. lra.
Qed.

(** A mono 16-bit file with a sample other than zero. *)
Lemma files_qualify : forall lm rate vs s, Forall (fun v => (-32768 <= v <= 32767)%Z) vs -> Exists (fun v => v <> 0%Z) vs ->
  load_as_mono (N:=F64 lm) (WavOk 1 rate 16 (map Some vs)) = Ok s -> recorded (data_matrix s).
Proof.
  intros lm rate vs s HI HE HL. destruct (C08_mono lm rate vs s HI HL) as [LE NT].
  assert (V : forall v, (-32768 <= v <= 32767)%Z -> v = 0%Z \/ / 65536 <= Rabs (fl (IZR v / 32767)) ).
  { intros v Hv. destruct (Z.eq_dec v 0) as [->|NZ]; [left; reflexivity|right].
    assert (A : / 32768 <= Rabs (IZR v / 32767)).
    { unfold Rdiv. rewrite Rabs_mult, (Rabs_pos_eq (/ 32767)) by lra. rewrite <- abs_IZR. assert (1 <= IZR (Z.abs v)) by (apply (IZR_le 1); lia). lra. }
    assert (B : Rabs (fl (IZR v / 32767) - IZR v / 32767) <= bpow radix2 (1 - 53)).
    { apply (rnd_err (IZR v / 32767) 1); [lia|]. change (bpow radix2 1) with 2. unfold Rdiv. rewrite Rabs_mult, (Rabs_pos_eq (/ 32767)) by lra. rewrite <- abs_IZR.
      assert (IZR (Z.abs v) <= 32768) by (apply (IZR_le _ 32768); lia). lra. }
    change (1 - 53)%Z with (-52)%Z in B. replace (bpow radix2 (-52)) with (/ 4503599627370496) in B by (symmetry; apply (bpn 52); reflexivity || lia).
    pose proof (Rabs_triang_inv (IZR v / 32767) (IZR v / 32767 - fl (IZR v / 32767))) as T.
    replace (IZR v / 32767 - (IZR v / 32767 - fl (IZR v / 32767))) with (fl (IZR v / 32767)) in T by ring. rewrite (Rabs_minus_sym (IZR v / 32767) (fl _)) in T. lra. }
  assert (W : forall v, (-32768 <= v <= 32767)%Z -> Rabs (fl (IZR v / 32767)) <= 2).
  { intros v Hv. apply abs_round_le_generic; [apply FLT_exp_valid; reflexivity|apply valid_rnd_N|apply generic_format_FLT_bpow with (e := 1%Z); reflexivity || lia|].
    unfold Rdiv. rewrite Rabs_mult, (Rabs_pos_eq (/ 32767)) by lra. rewrite <- abs_IZR.
    assert (IZR (Z.abs v) <= 32768) by (apply (IZR_le _ 32768); lia). lra. }
  rewrite Forall_forall in HI. split.
  - apply Forall_forall. intros x Hx. apply (In_nth_error (data_matrix s)) in Hx as (i & Hi).
    assert (Li : (i < List.length vs)%nat) by (rewrite <- LE; apply nth_error_Some; rewrite Hi; discriminate).
    destruct (NT i Li) as (y & Hy & F & E). assert (x = y) by congruence. subst y. split; [exact F|].
    assert (Iv : (-32768 <= nth i vs 0 <= 32767)%Z) by (apply HI, nth_In; exact Li).
    split.
    + rewrite E. apply W, Iv.
    + destruct (V _ Iv) as [Z|B].
      * left. rewrite E, Z. unfold fl, Rdiv. rewrite Rmult_0_l. apply round_0. apply valid_rnd_N.
      * right. rewrite E. eapply Rle_trans; [|exact B]. replace (/ 65536) with (bpow radix2 (-16)) by reflexivity. apply bpow_le. lia.
  - apply Exists_exists in HE as (v & Hv & NZ). apply (In_nth _ _ 0%Z) in Hv as (i & Li & Ev). destruct (NT i Li) as (y & Hy & F & E).
    apply Exists_exists. exists y. split; [eapply nth_error_In; exact Hy|]. rewrite E, Ev.
    destruct (V v) as [Z|B]; [rewrite <- Ev; apply HI, nth_In; exact Li|contradiction|].
    eapply Rle_trans; [|exact B]. replace (/ 65536) with (bpow radix2 (-16)) by reflexivity. apply bpow_le. lia.
Qed.
