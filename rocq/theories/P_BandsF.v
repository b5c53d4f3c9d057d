(** C32 in binary64. *)
From Coq Require Import Reals Lra Lia Psatz.
From Flocq Require Import Core IEEE754.BinarySingleNaN.
From Verif Require Import Base Num Mat F64 RNum M_Audio M_Align M_Spectro M_Patch M_Nsim M_Selector M_Visqol Spec Spec2 Spec14.
From Verif Require Import P_Base P_Mat P_Manager P_Run P_Score P_F64 P_Spectro P_Agg P_Bands P_Win P_NsimF P_LevelF P_Libm P_AggF.
Open Scope R_scope.

Lemma ln_near a b e : 0 < a -> 0 < b -> 0 <= e <= / 2 -> Rabs (a - b) <= e * b -> Rabs (ln a - ln b) <= 2 * e.
Proof.
  intros Pa Pb He H. apply Rabs_le_inv in H.
  assert (UP : forall z, 0 < z -> ln z <= z - 1).
  { intros z Pz. pose proof (exp_ineq1_le (ln z)) as K. rewrite exp_ln in K by exact Pz. lra. }
  apply Rabs_le. split.
  - assert (R : ln b - ln a <= b / a - 1). { pose proof (UP (b / a) ltac:(apply Rdiv_lt_0_compat; lra)) as K. unfold Rdiv in K at 1. rewrite ln_mult, ln_Rinv in K by (try apply Rinv_0_lt_compat; lra). exact K. }
    assert (b / a - 1 <= 2 * e); [|lra]. apply Rmult_le_reg_r with a; [lra|]. unfold Rdiv. rewrite Rmult_minus_distr_r, Rmult_assoc, Rinv_l by lra. nra.
  - assert (R : ln a - ln b <= a / b - 1). { pose proof (UP (a / b) ltac:(apply Rdiv_lt_0_compat; lra)) as K. unfold Rdiv in K at 1. rewrite ln_mult, ln_Rinv in K by (try apply Rinv_0_lt_compat; lra). exact K. }
    assert (a / b - 1 <= e); [|lra]. apply Rmult_le_reg_r with b; [lra|]. unfold Rdiv. rewrite Rmult_minus_distr_r, Rmult_assoc, Rinv_l by lra. lra.
Qed.
Lemma ln2_le : 0 < ln 2 <= 1.
Proof. split; [rewrite <- ln_1; apply ln_increasing; lra|]. rewrite <- (ln_exp 1). pose proof (exp_ineq1_le 1). destruct (Req_dec 2 (exp 1)) as [E|E]; [rewrite <- E; lra|left; apply ln_increasing; lra]. Qed.
Lemma ln_range x k : 1 <= x <= 2 ^ k -> 0 <= ln x <= INR k.
Proof.
  intros H. split.
  - rewrite <- ln_1. destruct (Req_dec x 1) as [->|N]; [lra|]. left. apply ln_increasing; lra.
  - apply Rle_trans with (ln (2 ^ k)); [destruct (Req_dec x (2 ^ k)) as [->|N]; [lra|left; apply ln_increasing; lra]|]. rewrite ln_pow by lra. pose proof ln2_le. pose proof (pos_INR k). nra.
Qed.

Section F.
Variable lm : Libm.
Hypotheses (HE : exp_close lm) (HN : ln_close lm).
Let Q : f64 := Bmult mode_NE (f64_lit 926449 5) (f64_lit 247 1).
Notation q := erb_q.
Lemma q_val : q = 228.832903. Proof. unfold erb_q. lra. Qed.
Lemma Q_ap : ap Q q (/ 8796093022208).
Proof.
  pose proof (lit_ap 926449 5 9.26449 4 ltac:(lia) ltac:(lia) ltac:(lia) ltac:(cbn; lra) ltac:(rewrite Rabs_pos_eq by lra; change (bpow radix2 4) with 16; lra)) as A.
  pose proof (lit_ap 247 1 24.7 5 ltac:(lia) ltac:(lia) ltac:(lia) ltac:(cbn; lra) ltac:(rewrite Rabs_pos_eq by lra; change (bpow radix2 5) with 32; lra)) as B.
  assert (E1 : bpow radix2 (4 - 53) = / 562949953421312) by (apply (bpn 49); reflexivity || lia). rewrite E1 in A.
  assert (E2 : bpow radix2 (5 - 53) = / 281474976710656) by (apply (bpn 48); reflexivity || lia). rewrite E2 in B.
  eapply ap_weaken; [apply (ap_mult _ _ _ _ _ _ 9.26449 24.7 8 ltac:(lia) A B); [rewrite Rabs_pos_eq; lra|rewrite Rabs_pos_eq; lra|change (bpow radix2 8) with 256; lra]|].
  assert (E3 : bpow radix2 (8 - 53) = / 35184372088832) by (apply (bpn 45); reflexivity || lia). rewrite E3. lra.
Qed.
(* adding q *)
Lemma plus_q (x : f64) : is_finite x = true -> 50 <= B2R x <= 8388608 -> ap (Bplus mode_NE x Q) (B2R x + q) (/ 137438953472 * (B2R x + q)) /\
  is_finite (lm_ln lm (Bplus mode_NE x Q)) = true /\ Rabs (B2R (lm_ln lm (Bplus mode_NE x Q)) - ln (B2R x + q)) <= / 34359738368 /\ 0 <= ln (B2R x + q) <= 24.
Proof.
  intros F B. pose proof q_val as QV. assert (E29 : bpow radix2 (24 - 53) = / 536870912) by (apply (bpn 29); reflexivity || lia).
  pose proof (ap_plus _ _ _ _ _ _ 24 ltac:(lia) (ap_self x F) Q_ap ltac:(rewrite !Rabs_pos_eq by lra; change (bpow radix2 24) with 16777216; lra)) as A. rewrite E29 in A.
  assert (A' : ap (Bplus mode_NE x Q) (B2R x + q) (/ 137438953472 * (B2R x + q))) by (eapply ap_weaken; [exact A|]; lra).
  split; [exact A'|]. destruct A' as [F' E']. pose proof E' as E0. apply Rabs_le_inv in E0.
  assert (B32 : bpow radix2 32 = 4294967296) by reflexivity.
  destruct (HN (Bplus mode_NE x Q) F' ltac:(rewrite B32; lra)) as [FL EL]. split; [exact FL|].
  pose proof (fun a b c => ln_near _ _ _ a b c E') as LN. specialize (LN ltac:(lra) ltac:(lra) ltac:(lra)).
  split; [rewrite bm40 in EL; apply Rabs_le_inv in EL, LN; apply Rabs_le; lra|].
  pose proof (ln_range (B2R x + q) 24 ltac:(lra)) as K. replace (INR 24) with 24 in K by (cbn; lra). exact K.
Qed.
Variables (nb : nat) (high : f64).
Hypotheses (Hn : (1 <= nb <= 1024)%nat) (Fh : is_finite high = true) (Bh : 51 <= B2R high <= 8388608).
Notation h := (B2R high).
Let low : f64 := f64_ofZ 50.
Let freqs : list f64 := calculate_uniform_center_freqs (N:=F64 lm) nb low high.
(* the exact value of entry [i] *)
Definition fr (i : nat) : R := exp ((INR i + 1) * ((ln (50 + q) - ln (h + q)) / INR nb)) * (h + q).
Lemma freqs_len : List.length freqs = nb. Proof. unfold freqs, calculate_uniform_center_freqs. cbv zeta. rewrite map_length, seq_length. reflexivity. Qed.
Lemma nb_R : 1 <= INR nb <= 1024. Proof. rewrite INR_IZR_INZ. split; [apply (IZR_le 1)|apply (IZR_le _ 1024)]; lia. Qed.
Lemma delta_bnd : / 280 <= ln (h + q) - ln (50 + q) <= 15.
Proof.
  pose proof q_val as QV. assert (P1 : 0 < 50 + q) by lra. assert (P2 : 0 < h + q) by lra.
  assert (D : ln (h + q) - ln (50 + q) = ln ((h + q) / (50 + q))) by (unfold Rdiv; rewrite ln_mult, ln_Rinv by (try apply Rinv_0_lt_compat; lra); reflexivity).
  split.
  - pose proof (exp_ineq1_le (ln ((50 + q) / (h + q)))) as K. assert (P3 : 0 < (50 + q) / (h + q)) by (apply Rdiv_lt_0_compat; lra). rewrite exp_ln in K by exact P3.
    assert (D' : ln ((50 + q) / (h + q)) = ln (50 + q) - ln (h + q)) by (unfold Rdiv; rewrite ln_mult, ln_Rinv by (try apply Rinv_0_lt_compat; lra); reflexivity).
    rewrite D' in K. assert ((50 + q) / (h + q) <= 1 - / 280); [|lra]. apply Rmult_le_reg_r with (h + q); [lra|]. unfold Rdiv. rewrite Rmult_assoc, Rinv_l by lra. lra.
  - rewrite D. assert (R : 1 <= (h + q) / (50 + q) <= 2 ^ 15).
    { split; apply Rmult_le_reg_r with (50 + q); try lra; unfold Rdiv; rewrite Rmult_assoc, Rinv_l by lra; lra. }
    pose proof (ln_range _ 15 R) as K. replace (INR 15) with 15 in K by (cbn; lra). lra.
Qed.
Lemma fr_bnd i : (i < nb)%nat -> 50 + q <= fr i <= h + q.
Proof.
  intros Hi. pose proof delta_bnd as D. pose proof nb_R as NR. pose proof q_val as QV. unfold fr.
  assert (P1 : 0 < h + q) by lra. set (e := (ln (50 + q) - ln (h + q)) / INR nb).
  assert (I : 0 <= INR i + 1 <= INR nb) by (split; [pose proof (pos_INR i); lra|]; rewrite <- S_INR; apply le_INR; lia).
  assert (En : INR nb * e = ln (50 + q) - ln (h + q)) by (unfold e; field; lra).
  assert (e <= 0) by (apply Rmult_le_reg_l with (INR nb); [lra|]; rewrite En; lra).
  assert (T : ln (50 + q) - ln (h + q) <= (INR i + 1) * e <= 0) by (split; nra).
  split.
  - apply Rle_trans with (exp (ln (50 + q) - ln (h + q)) * (h + q)).
    + unfold Rminus. rewrite exp_plus, exp_Ropp, !exp_ln by lra. rewrite Rmult_assoc, Rinv_l by lra. lra.
    + apply Rmult_le_compat_r; [lra|]. destruct (proj1 T) as [K|K]; [left; apply exp_increasing; exact K|right; rewrite K; reflexivity].
  - assert (exp ((INR i + 1) * e) <= 1); [|nra]. apply Rle_trans with (exp 0); [|rewrite exp_0; lra]. destruct (proj2 T) as [K|K]; [left; apply exp_increasing; exact K|right; rewrite K; reflexivity].
Qed.
Lemma freq_near i d : (i < nb)%nat -> ap (nth i freqs d) (fr i - q) (bpow radix2 (-30) * fr i).
Proof.
  intros Hi. unfold freqs, calculate_uniform_center_freqs. cbv zeta.
  match goal with |- context [map ?f (seq 0 nb)] => rewrite (nth_indep _ d (f 0%nat)) by (rewrite map_length, seq_length; exact Hi); rewrite (map_nth f), seq_nth by exact Hi end.
  cbn [Nat.add]. cbn [F64 nadd nmul ndiv nneg nexp nln nofZ]. change (nlit (F64 lm)) with f64_lit. 
  change (EAR_Q (N:=F64 lm)) with (f64_lit 926449 5). change (MIN_BW (N:=F64 lm)) with (f64_lit 247 1). fold Q.
  pose proof q_val as QV. pose proof nb_R as NR. pose proof delta_bnd as D. pose proof (fr_bnd i Hi) as FB.
  assert (F50 : is_finite low = true) by (apply ofZ_fin; lia). assert (V50 : B2R low = 50) by (unfold low; rewrite ofZ_B2R by lia; reflexivity).
  destruct (plus_q low F50 ltac:(rewrite V50; lra)) as (_ & FL & EL & RL). rewrite V50 in EL, RL.
  destruct (plus_q high Fh ltac:(lra)) as (AH & FH & EH & RH).
  set (LL := lm_ln lm (Bplus mode_NE low Q)) in *. set (LH := lm_ln lm (Bplus mode_NE high Q)) in *. set (HH := Bplus mode_NE high Q) in *.
  assert (E47 : bpow radix2 (6 - 53) = / 140737488355328) by (apply (bpn 47); reflexivity || lia).
  assert (E49 : bpow radix2 (4 - 53) = / 562949953421312) by (apply (bpn 49); reflexivity || lia).
  assert (AS : ap (Bplus mode_NE (Bopp LH) LL) (ln (50 + q) - ln (h + q)) (/ 16000000000)).
  { assert (AO : ap (Bopp LH) (- ln (h + q)) (/ 34359738368)).
    { split; [rewrite is_finite_Bopp; exact FH|]. rewrite B2R_Bopp. replace (- B2R LH - - ln (h + q)) with (- (B2R LH - ln (h + q))) by ring. rewrite Rabs_Ropp. exact EH. }
    pose proof (ap_plus _ _ _ _ _ _ 6 ltac:(lia) AO (conj FL EL : ap LL (ln (50 + q)) (/ 34359738368)) ltac:(rewrite Rabs_Ropp, !Rabs_pos_eq by lra; change (bpow radix2 6) with 64; lra)) as K.
    replace (- ln (h + q) + ln (50 + q)) with (ln (50 + q) - ln (h + q)) in K by ring. eapply ap_weaken; [exact K|]. rewrite E47. lra. }
  set (S := ln (50 + q) - ln (h + q)) in *. set (SF := Bplus mode_NE (Bopp LH) LL) in *.
  (* the step *)
  assert (IN : 0 < / INR nb <= 1) by (split; [apply Rinv_0_lt_compat; lra|rewrite <- Rinv_1; apply Rinv_le_contravar; lra]).
  assert (NB : B2R (f64_ofZ (Z.of_nat nb)) = INR nb) by (rewrite ofZ_B2R by lia; rewrite INR_IZR_INZ; reflexivity).
  destruct AS as [FS ES]. assert (SB : Rabs (B2R SF) <= 15.5) by (apply Rabs_le_inv in ES; apply Rabs_le; unfold S in *; lra).
  assert (XB : Rabs (B2R SF / INR nb) <= bpow radix2 4).
  { change (bpow radix2 4) with 16. unfold Rdiv. rewrite Rabs_mult, (Rabs_pos_eq (/ _)) by lra. pose proof (Rabs_pos (B2R SF)). nra. }
  assert (AE : is_finite (Bdiv mode_NE SF (f64_ofZ (Z.of_nat nb))) = true /\ Rabs (B2R (Bdiv mode_NE SF (f64_ofZ (Z.of_nat nb))) - S / INR nb) <= / 16000000000 / INR nb + / 562949953421312).
  { destruct (Bdiv_fin SF (f64_ofZ (Z.of_nat nb))) as [F V]; [exact FS|apply ofZ_fin; lia|rewrite NB; lra|rewrite NB; apply (bpow_1000_big _ 4 ltac:(lia)), rnd_abs_bpow; [lia|exact XB]|]. split; [exact F|]. rewrite V, NB.
    pose proof (rnd_err (B2R SF / INR nb) 4 ltac:(lia) XB) as RE. rewrite E49 in RE.
    replace (rnd (B2R SF / INR nb) - S / INR nb) with ((rnd (B2R SF / INR nb) - B2R SF / INR nb) + (B2R SF - S) * / INR nb) by (field; lra).
    eapply Rle_trans; [apply Rabs_triang|]. rewrite Rabs_mult, (Rabs_pos_eq (/ INR nb)) by lra. unfold Rdiv at 3. pose proof (Rabs_pos (B2R SF - S)). nra. }
  set (EF := Bdiv mode_NE SF (f64_ofZ (Z.of_nat nb))) in *. destruct AE as [FE EE].
  (* the exponent *)
  assert (I1 : is_finite (Bplus mode_NE (f64_ofZ (Z.of_nat i)) (f64_ofZ 1)) = true /\ B2R (Bplus mode_NE (f64_ofZ (Z.of_nat i)) (f64_ofZ 1)) = INR i + 1).
  { assert (R : IZR (Z.of_nat i) + 1 = IZR (Z.of_nat i + 1)) by (rewrite plus_IZR; reflexivity).
    destruct (Bplus_fin (f64_ofZ (Z.of_nat i)) (f64_ofZ 1)) as [F V]; try (apply ofZ_fin; lia).
    - rewrite !ofZ_B2R by lia. rewrite R, rnd_IZR by lia. apply (bpow_1000_big _ 11 ltac:(lia)). rewrite <- abs_IZR. change (bpow radix2 11) with (IZR 2048). apply IZR_le. lia.
    - split; [exact F|]. rewrite V, !ofZ_B2R by lia. rewrite R, rnd_IZR by lia. rewrite <- R, INR_IZR_INZ. reflexivity. }
  destruct I1 as [FI VI]. set (IF := Bplus mode_NE (f64_ofZ (Z.of_nat i)) (f64_ofZ 1)) in *.
  assert (IB : 1 <= INR i + 1 <= INR nb) by (split; [pose proof (pos_INR i); lra|]; rewrite <- S_INR; apply le_INR; lia).
  set (t := (INR i + 1) * (S / INR nb)).
  assert (TB : -15 <= t <= 0).
  { assert (En : INR nb * (S / INR nb) = S) by (field; lra). assert (S / INR nb <= 0) by (apply Rmult_le_reg_l with (INR nb); [lra|]; rewrite En; unfold S; lra). unfold t, S in *. split; nra. }
  assert (PD : Rabs ((INR i + 1) * B2R EF - t) <= / 15000000000).
  { unfold t. rewrite <- Rmult_minus_distr_l, Rabs_mult, (Rabs_pos_eq (INR i + 1)) by lra.
    apply Rle_trans with ((INR i + 1) * (/ 16000000000 / INR nb + / 562949953421312)); [apply Rmult_le_compat_l; lra|].
    apply Rle_trans with (INR nb * (/ 16000000000 / INR nb + / 562949953421312)).
    - apply Rmult_le_compat_r; [|lra]. assert (0 < / 16000000000 / INR nb) by (apply Rdiv_lt_0_compat; lra). lra.
    - replace (INR nb * (/ 16000000000 / INR nb + / 562949953421312)) with (/ 16000000000 + INR nb * / 562949953421312) by (field; lra). lra. }
  assert (PB : Rabs ((INR i + 1) * B2R EF) <= bpow radix2 4) by (change (bpow radix2 4) with 16; apply Rabs_le_inv in PD; apply Rabs_le; lra).
  assert (AT : is_finite (Bmult mode_NE IF EF) = true /\ Rabs (B2R (Bmult mode_NE IF EF) - t) <= / 14000000000).
  { destruct (Bmult_fin IF EF FI FE) as [F V]; [rewrite VI; apply (bpow_1000_big _ 4 ltac:(lia)), rnd_abs_bpow; [lia|exact PB]|]. split; [exact F|]. rewrite V, VI.
    pose proof (rnd_err _ 4 ltac:(lia) PB) as RE. rewrite E49 in RE. apply Rabs_le_inv in RE, PD. apply Rabs_le. lra. }
  set (TF := Bmult mode_NE IF EF) in *. destruct AT as [FT ET].
  destruct (HE TF FT ltac:(apply Rabs_le_inv in ET; apply Rabs_le; lra)) as [FX EX]. rewrite bm40 in EX.
  assert (XN : Rabs (B2R (lm_exp lm TF) - exp t) <= / 6000000000 * exp t).
  { assert (Z : exp (B2R TF) = exp t * exp (B2R TF - t)) by (rewrite <- exp_plus; f_equal; ring).
    pose proof (exp_near (B2R TF - t) ltac:(lra)) as N. assert (N' : Rabs (exp (B2R TF - t) - 1) <= 2 * / 14000000000) by lra. apply Rabs_le_inv in N'.
    rewrite Z in EX. pose proof (exp_pos t) as P. set (g := exp (B2R TF - t)) in *. apply Rabs_le_inv in EX. apply Rabs_le. nra. }
  set (X := lm_exp lm TF) in *. pose proof (exp_pos t) as Pt.
  assert (FRV : fr i = exp t * (h + q)) by reflexivity.
  (* the product *)
  destruct AH as [FHH EHH].
  assert (PN : Rabs (B2R X * B2R HH - fr i) <= / 5000000000 * fr i).
  { rewrite FRV. apply Rabs_le_inv in XN, EHH. assert (0 < h + q) by lra. set (hq := h + q) in *.
    assert (X0 : 0 < B2R X) by nra. assert (H0 : 0 < B2R HH) by nra.
    apply Rabs_le. split.
    - assert ((1 - / 6000000000) * exp t * ((1 - / 137438953472) * hq) <= B2R X * B2R HH) by (apply Rmult_le_compat; nra). assert (0 < exp t * hq) by (apply Rmult_lt_0_compat; lra). nra.
    - assert (B2R X * B2R HH <= (1 + / 6000000000) * exp t * ((1 + / 137438953472) * hq)) by (apply Rmult_le_compat; nra). assert (0 < exp t * hq) by (apply Rmult_lt_0_compat; lra). nra. }
  assert (MB : Rabs (B2R X * B2R HH) <= bpow radix2 24) by (change (bpow radix2 24) with 16777216; apply Rabs_le_inv in PN; apply Rabs_le; lra).
  assert (E29 : bpow radix2 (24 - 53) = / 536870912) by (apply (bpn 29); reflexivity || lia).
  assert (AP : ap (Bmult mode_NE X HH) (fr i) (/ 4000000000 * fr i)).
  { destruct (Bmult_fin X HH FX FHH) as [F V]; [apply (bpow_1000_big _ 24 ltac:(lia)), rnd_abs_bpow; [lia|exact MB]|]. split; [exact F|]. rewrite V.
    pose proof (rnd_err _ 24 ltac:(lia) MB) as RE. rewrite E29 in RE. apply Rabs_le_inv in RE, PN. apply Rabs_le. lra. }
  assert (AQ : ap (Bopp Q) (- q) (/ 8796093022208)).
  { destruct Q_ap as [F V]. split; [rewrite is_finite_Bopp; exact F|]. rewrite B2R_Bopp. replace (- B2R Q - - q) with (- (B2R Q - q)) by ring. rewrite Rabs_Ropp. exact V. }
  pose proof (ap_plus _ _ _ _ _ _ 24 ltac:(lia) AQ AP ltac:(rewrite Rabs_Ropp, !Rabs_pos_eq by lra; change (bpow radix2 24) with 16777216; lra)) as K.
  rewrite E29 in K. replace (- q + fr i) with (fr i - q) in K by ring.
  assert (E30 : bpow radix2 (-30) = / 1073741824) by (apply (bpn 30); reflexivity || lia). rewrite E30.
  eapply ap_weaken; [exact K|]. lra.
Qed.
Lemma fr_dec i j : (i < j < nb)%nat -> fr j * (1 + / 300000) <= fr i.
Proof.
  intros Hij. unfold fr. pose proof delta_bnd as D. pose proof nb_R as NR. pose proof q_val as QV. assert (P : 0 < h + q) by lra.
  set (e := (ln (50 + q) - ln (h + q)) / INR nb). assert (En : INR nb * e = ln (50 + q) - ln (h + q)) by (unfold e; field; lra).
  assert (e <= - / 290000). { apply Rmult_le_reg_l with (INR nb); [lra|]. rewrite En. nra. }
  replace ((INR i + 1) * e) with ((INR j + 1) * e + (INR j - INR i) * (- e)) by ring. rewrite exp_plus.
  assert (1 <= INR j - INR i) by (assert (INR i + 1 <= INR j) by (rewrite <- S_INR; apply le_INR; lia); lra).
  pose proof (exp_ineq1_le ((INR j - INR i) * - e)). pose proof (exp_pos ((INR j + 1) * e)). assert (1 + / 300000 <= exp ((INR j - INR i) * - e)) by nra.
  assert (0 < exp ((INR j + 1) * e) * (h + q)) by (apply Rmult_lt_0_compat; lra). nra.
Qed.
Lemma fr_top i : (i < nb)%nat -> fr i * (1 + / 300000) <= h + q.
Proof.
  intros Hi. unfold fr. pose proof delta_bnd as D. pose proof nb_R as NR. pose proof q_val as QV. assert (P : 0 < h + q) by lra.
  set (e := (ln (50 + q) - ln (h + q)) / INR nb). assert (En : INR nb * e = ln (50 + q) - ln (h + q)) by (unfold e; field; lra).
  assert (e <= - / 290000). { apply Rmult_le_reg_l with (INR nb); [lra|]. rewrite En. nra. }
  pose proof (pos_INR i). pose proof (exp_ineq1_le (- ((INR i + 1) * e))) as K. rewrite exp_Ropp in K. pose proof (exp_pos ((INR i + 1) * e)) as X. set (x := exp _) in *.
  assert (1 + / 300000 <= / x) by nra. assert (x * (1 + / 300000) <= 1); [|nra]. apply Rmult_le_reg_r with (/ x); [apply Rinv_0_lt_compat; exact X|]. rewrite Rmult_comm, <- Rmult_assoc, Rinv_l by lra. lra.
Qed.
Lemma freqs_dec i j d : (i < j < nb)%nat -> B2R (nth j freqs d) < B2R (nth i freqs d).
Proof.
  intros Hij. destruct (freq_near i d ltac:(lia)) as [_ A]. destruct (freq_near j d ltac:(lia)) as [_ B].
  pose proof (fr_dec i j Hij) as C. pose proof (fr_bnd i ltac:(lia)). pose proof (fr_bnd j ltac:(lia)). pose proof q_val.
  assert (E30 : bpow radix2 (-30) = / 1073741824) by (apply (bpn 30); reflexivity || lia). rewrite E30 in *. apply Rabs_le_inv in A, B. lra.
Qed.
Lemma freqs_below i d : (i < nb)%nat -> B2R (nth i freqs d) < h.
Proof.
  intros Hi. destruct (freq_near i d Hi) as [_ A]. pose proof (fr_top i Hi) as C. pose proof (fr_bnd i Hi). pose proof q_val.
  assert (E30 : bpow radix2 (-30) = / 1073741824) by (apply (bpn 30); reflexivity || lia). rewrite E30 in *. apply Rabs_le_inv in A. lra.
Qed.
Lemma freqs_fin x : In x freqs -> is_finite x = true.
Proof. intros H. apply (In_nth _ _ (f64_ofZ 0)) in H. destruct H as (k & Hk & <-). rewrite freqs_len in Hk. apply (freq_near k _ Hk). Qed.
Lemma sort_dec_f (l : list f64) d : (forall x, In x l -> is_finite x = true) -> (forall i j, (i < j < List.length l)%nat -> B2R (nth j l d) < B2R (nth i l d)) ->
  fold_right (insert_num (N:=F64 lm)) [] l = rev l.
Proof.
  induction l as [|x l IH]; intros FL H; [reflexivity|]. cbn [fold_right rev]. rewrite IH.
  - assert (G : forall m, (forall y, In y m -> is_finite y = true /\ B2R y < B2R x) -> insert_num (N:=F64 lm) x m = m ++ [x]).
    { induction m as [|y m IM]; intros K; [reflexivity|]. cbn [insert_num app]. destruct (K y (or_introl eq_refl)) as [Fy Ly].
      assert (E : nleb (F64 lm) x y = false).
      { apply not_true_is_false. intros T. change (Bleb x y = true) in T. apply Bleb_true in T. destruct T as (_ & _ & T). rewrite !ext_finite in T by (auto; apply FL; left; auto). lra. }
      rewrite E. f_equal. apply IM. intros z Hz. apply K. right. exact Hz. }
    apply G. intros y Hy. apply in_rev in Hy. split; [apply FL; right; exact Hy|]. apply (In_nth _ _ d) in Hy. destruct Hy as (k & Hk & <-). apply (H 0%nat (S k)). cbn [List.length]. lia.
  - intros y Hy. apply FL. right. exact Hy.
  - intros i j Hij. apply (H (S i) (S j)). cbn [List.length]. lia.
Qed.
Lemma freqs_sorted : sort_num (N:=F64 lm) freqs = Ok (rev freqs).
Proof.
  unfold sort_num. assert (E : existsb (nis_nan (N:=F64 lm)) freqs = false).
  { apply not_true_is_false. intros H. apply existsb_exists in H. destruct H as (x & Hx & H). apply freqs_fin in Hx. unfold nis_nan in H. change (negb (Beqb x x) = true) in H.
    assert (T : Beqb x x = true) by (apply Beqb_true; repeat split; apply is_nan_finite; exact Hx). rewrite T in H. discriminate H. }
  rewrite E, andb_false_r. f_equal. apply (sort_dec_f _ (f64_ofZ 0)); [exact freqs_fin|]. intros i j Hij. rewrite freqs_len in Hij. apply freqs_dec. lia.
Qed.
Lemma fr_erb k : (k < nb)%nat -> fr (nb - 1 - k) - q = erb_frequency nb h k.
Proof.
  intros Hk. pose proof nb_R as NR. pose proof q_val as QV. unfold fr, erb_frequency. f_equal.
  replace (h + q) with (exp (ln (h + q))) at 2 by (apply exp_ln; lra). rewrite <- exp_plus. f_equal.
  replace (INR (nb - 1 - k) + 1) with (INR nb - INR k). { field. lra. }
  rewrite minus_INR, minus_INR by lia. cbn [INR]. ring.
Qed.
End F.

Lemma bands_f64 lm pf nb v ws (m m' : Manager (F64 lm)) calls files a b (rs : AudioSignal (F64 lm)) r : exp_close lm -> ln_close lm ->
  new_manager nb v ws = Ok m -> load_as_mono (files a) = Ok rs -> (102 <= sample_rate rs <= 2 ^ 24)%Z -> (nb <= 1024)%nat ->
  run pf nb files (after_calls pf nb m calls) a b = (m', Ok r) ->
  let rate := sample_rate rs in
  let upper := Rmin (IZR (if Nat.eqb nb 21 then 8000 else rate / 2)) (IZR rate / 2) in
  let c := res_center_freq_bands r in
  List.length c = nb /\
  forall d, (forall k, (k < nb)%nat -> is_finite (nth k c d : f64) = true /\ B2R (nth k c d : f64) < upper /\
     Rabs (B2R (nth k c d : f64) - erb_frequency nb upper k) <= bpow radix2 (-30) * (erb_frequency nb upper k + erb_q)) /\
  (forall i j, (i < j < nb)%nat -> B2R (nth i c d : f64) < B2R (nth j c d : f64)).
Proof.
  intros HE HN Hm La Hr Hnb2 H rate upper c.
  pose proof H as H0. apply run_ok in H0. destruct H0 as (rs0 & ds0 & al0 & lag0 & f0 & A1 & A2 & _ & A4 & H0).
  apply calculate_ok in H0. destruct H0 as (L1 & L2 & _ & _ & SH & NE & VN & _). clear A1 A2 A4.
  assert (Hnb : (1 <= nb)%nat) by (destruct nb; [|lia]; destruct (fvnsim r); [discriminate VN|discriminate L1]).
  set (m1 := after_calls pf nb m calls) in *. destruct (after_same pf nb calls m) as (_ & _ & _ & FM). fold m1 in FM.
  assert (HM : fb_min_freq (mg_filterbank m1) = f64_ofZ 50).
  { rewrite FM. unfold new_manager in Hm. destruct v as [u|[s|]]; cbn [bind] in Hm; try discriminate; injection Hm as <-; reflexivity. }
  apply run_parts in H. destruct H as (rs' & ds' & al & lag & fb1 & fb2 & fb3 & rspec & dspec & rp & dp & idx & pts & info & H).
  cbv zeta in H. destruct H as (LA & _ & _ & _ & B1 & _ & _ & _ & _ & _ & _ & _ & _ & _ & CF).
  assert (rs' = rs) by congruence. subst rs'.
  pose proof (build_inv nb _ _ _ _ _ B1) as (_ & _ & cols & _ & _ & S).
  unfold make_filters in S. cbv zeta in S. cbn [snd] in S. rewrite HM in S. cbn [F64 nltb ndiv nofZ] in S.
  match type of S with context [calculate_uniform_center_freqs nb _ ?t] => set (hi := t) in S end.
  assert (MF : max_freq nb (sample_rate rs) = if Nat.eqb nb 21 then 8000%Z else (rate / 2)%Z) by reflexivity.
  assert (MB : (51 <= max_freq nb (sample_rate rs) <= 2 ^ 23)%Z).
  { rewrite MF. destruct (Nat.eqb nb 21); [lia|]. unfold rate. split; [apply Z.div_le_lower_bound; lia|apply Z.div_le_upper_bound; lia]. }
  assert (RB : 102 <= IZR rate <= 16777216) by (split; [apply (IZR_le 102)|apply (IZR_le _ 16777216)]; unfold rate; lia).
  assert (HF : is_finite (Bdiv mode_NE (f64_ofZ rate) (f64_ofZ 2)) = true /\ B2R (Bdiv mode_NE (f64_ofZ rate) (f64_ofZ 2)) = IZR rate / 2).
  { assert (G : rnd (IZR rate / 2) = IZR rate / 2).
    { apply rnd_id. replace (IZR rate / 2) with (F2R (Float radix2 rate (-1))) by (unfold F2R; cbn [Fnum Fexp]; change (bpow radix2 (-1)) with (/ 2); lra).
      apply generic_format_FLT. exists (Float radix2 rate (-1)); [reflexivity| |cbn; lia]. cbn [Fnum]. unfold rate. rewrite Z.abs_eq by lia. apply Z.le_lt_trans with (2 ^ 24)%Z; [lia|reflexivity]. }
    destruct (Bdiv_fin (f64_ofZ rate) (f64_ofZ 2)) as [F V]; try (apply ofZ_fin; unfold rate; lia).
    - rewrite ofZ_B2R by lia. lra.
    - rewrite !ofZ_B2R by (unfold rate; lia). rewrite G. apply (bpow_1000_big _ 24 ltac:(lia)). change (bpow radix2 24) with 16777216. rewrite Rabs_pos_eq; lra.
    - split; [exact F|]. rewrite V, !ofZ_B2R by (unfold rate; lia). exact G. }
  destruct HF as [FH VH].
  assert (HI : is_finite hi = true /\ B2R hi = upper).
  { unfold hi, upper. rewrite <- MF. fold rate. destruct (Bltb (Bdiv mode_NE (f64_ofZ rate) (f64_ofZ 2)) (f64_ofZ (max_freq nb rate))) eqn:E.
    - split; [exact FH|]. apply Bltb_true in E. destruct E as (_ & _ & E). rewrite !ext_finite, VH, ofZ_B2R in E by (auto; try apply ofZ_fin; unfold rate; lia). unfold rate in *. rewrite VH. rewrite Rmin_right; lra.
    - apply Bltb_false in E; try (apply is_nan_finite; auto; apply ofZ_fin; unfold rate; lia). rewrite !ext_finite, VH, ofZ_B2R in E by (auto; try apply ofZ_fin; unfold rate; lia).
      split; [apply ofZ_fin; unfold rate; lia|]. rewrite ofZ_B2R by (unfold rate; lia). unfold rate in *. rewrite Rmin_left; lra. }
  destruct HI as [FI VI].
  assert (UB : 51 <= B2R hi <= 8388608).
  { rewrite VI. unfold upper. rewrite <- MF. assert (51 <= IZR (max_freq nb (sample_rate rs)) <= 8388608) by (split; [apply (IZR_le 51)|apply (IZR_le _ 8388608)]; lia).
    split; [apply Rmin_glb; lra|]. eapply Rle_trans; [apply Rmin_l|lra]. }
  set (fq := calculate_uniform_center_freqs (N:=F64 lm) nb (f64_ofZ 50) hi).
  change (sort_num fq = Ok (center_freq_bands rspec)) in S.
  pose proof (freqs_sorted lm HE HN nb hi ltac:(lia) FI UB) as SO. cbv zeta in SO. fold fq in SO. rewrite SO in S. injection S as S.
  assert (LQ : List.length fq = nb) by (apply (freqs_len lm nb hi)).
  unfold c. rewrite CF, <- S. change (num (F64 lm)) with f64 in *. split; [rewrite rev_length; exact LQ|]. intros d.
  assert (NT : forall k, (k < nb)%nat -> nth k (rev fq) d = nth (nb - 1 - k) fq d).
  { intros k Hk. rewrite rev_nth by lia. rewrite LQ. f_equal. lia. }
  split.
  - intros k Hk. rewrite NT by exact Hk. destruct (freq_near lm HE HN nb hi ltac:(lia) FI UB (nb - 1 - k) d ltac:(lia)) as [FX EX].
    split; [exact FX|]. split; [rewrite <- VI; apply (freqs_below lm HE HN nb hi ltac:(lia) FI UB); lia|].
    rewrite <- VI, <- (fr_erb nb hi ltac:(lia) UB k Hk). replace (fr nb hi (nb - 1 - k) - erb_q + erb_q) with (fr nb hi (nb - 1 - k)) by ring. exact EX.
  - intros i j Hij. rewrite !NT by lia. apply (freqs_dec lm HE HN nb hi ltac:(lia) FI UB). lia.
Qed.
Lemma true_ln : ln_close lm_true.
Proof.
  intros x F H. cbn [lm_ln lm_true]. change (bpow radix2 32) with (2 ^ 32) in H || idtac. assert (H' : 1 <= B2R x <= 2 ^ 32) by (change (bpow radix2 32) with 4294967296 in H; lra).
  pose proof (ln_range (B2R x) 32 H') as L. replace (INR 32) with 32 in L by (cbn; lra). set (r := ln (B2R x)) in *.
  destruct (ap_rnd r r 0 6 ltac:(lia)) as [A B]; [rewrite Rminus_diag_eq, Rabs_R0 by reflexivity; lra|change (bpow radix2 6) with 64; rewrite Rabs_pos_eq; lra|].
  destruct (toF_ok r A) as [G E]. split; [exact G|]. rewrite E. eapply Rle_trans; [exact B|]. rewrite Rplus_0_l. apply bpow_le. lia.
Qed.
