(** The formula of C29 in binary64, up to rounding. *)
From Coq Require Import Reals Lra Lia.
From Flocq Require Import Core IEEE754.BinarySingleNaN.
From Verif Require Import Base Num Mat F64 RNum M_Audio M_Align M_Spectro.
From Verif Require Import P_Base P_Mat P_F64 P_Score Spec Spec2 Spec14 P_Win P_Prep P_Prep2 P_NsimF P_LevelF P_Libm.
Open Scope R_scope.

Lemma log_range (x : f64) : is_finite x = true -> 0 < B2R x -> Rabs (ln (B2R x) / ln 10) <= 359.
Proof.
  intros F P. pose proof ln10_bnd as L10.
  assert (L2 : 0 < ln 2 <= ln 10 / 3).
  { split; [rewrite <- ln_1; apply ln_increasing; lra|]. apply Rmult_le_reg_l with 3; [lra|]. replace (3 * (ln 10 / 3)) with (ln 10) by field.
    replace (3 * ln 2) with (ln (2 ^ 3)) by (rewrite ln_pow by lra; cbn [INR]; ring). left. apply ln_increasing; lra. }
  assert (LB : forall e, ln (bpow radix2 e) = IZR e * ln 2).
  { intros e. rewrite bpow_exp. rewrite ln_exp. reflexivity. }
  assert (U : B2R x <= bpow radix2 1024). { pose proof (abs_B2R_lt_emax 53 1024 x) as K. rewrite Rabs_pos_eq in K by lra. left. exact K. }
  assert (W : bpow radix2 (-1074) <= B2R x).
  { assert (G : generic_format radix2 (FLT_exp (-1074) 53) (B2R x)) by apply generic_format_B2R.
    pose proof (FLT_format_B2R 53 1024 eq_refl x) as G'. rewrite <- (Rabs_pos_eq (B2R x)) by lra.
    apply (generic_format_ge_bpow radix2 (FLT_exp (-1074) 53)); [intros e; unfold FLT_exp; lia|rewrite Rabs_pos_eq; lra|]. apply generic_format_abs. exact G. }
  assert (LU : ln (B2R x) <= 1024 * ln 2). { rewrite <- (LB 1024%Z). destruct (Rle_lt_or_eq_dec _ _ U) as [K|K]; [left; apply ln_increasing; auto|rewrite K; lra]. }
  assert (LL : - (1074 * ln 2) <= ln (B2R x)). { replace (- (1074 * ln 2)) with (IZR (-1074) * ln 2) by (cbn; ring). rewrite <- (LB (-1074)%Z). destruct (Rle_lt_or_eq_dec _ _ W) as [K|K]; [left; apply ln_increasing; [apply bpow_gt_0|exact K]|rewrite K; lra]. }
  apply Rabs_le. split; apply Rmult_le_reg_r with (ln 10); try lra; unfold Rdiv; rewrite ?Rmult_assoc, ?Rinv_l, ?Rmult_1_r by lra; lra.
Qed.
Lemma accurate_finite lm : log10_accurate lm -> log10_finite lm.
Proof.
  intros H x F P. destruct (H x F P) as [FL E]. split; [exact FL|]. pose proof (log_range x F P) as L. rewrite bm40 in E.
  apply Rabs_le_inv in E, L. apply Rabs_le. lra.
Qed.
Lemma true_log10_all : log10_accurate lm_true.
Proof.
  intros x F P. cbn [lm_log10 lm_true]. pose proof (log_range x F P) as L. set (r := ln (B2R x) / ln 10) in *.
  destruct (ap_rnd r r 0 9 ltac:(lia)) as [A B]; [rewrite Rminus_diag_eq, Rabs_R0 by reflexivity; lra|change (bpow radix2 9) with 512; lra|].
  destruct (toF_ok r A) as [G E]. split; [exact G|]. rewrite E. eapply Rle_trans; [exact B|]. rewrite Rplus_0_l. apply bpow_le. lia.
Qed.

Section F.
Variable lm : Libm.
Hypothesis HL : log10_accurate lm.
Let HLF : log10_finite lm := accurate_finite lm HL.
Definition eta : R := 11 * / 1099511627776.
Lemma max_near a b c e : Rabs (a - b) <= e -> Rabs (Rmax c a - Rmax c b) <= e.
Proof. intros H. apply Rabs_le_inv in H. apply Rabs_le. unfold Rmax. repeat destruct (Rle_dec _ _); lra. Qed.
Lemma max_near2 a b c d e : Rabs (a - b) <= e -> Rabs (c - d) <= e -> Rabs (Rmax c a - Rmax d b) <= e.
Proof. intros H G. apply Rabs_le_inv in H, G. apply Rabs_le. unfold Rmax. repeat destruct (Rle_dec _ _); lra. Qed.
Lemma f64_eps_val : B2R f64_epsilon = bpow radix2 (-52).
Proof.
  assert (S : B2SF f64_epsilon = SpecFloat.S754_finite false 4503599627370496 (-104)) by (vm_compute; reflexivity).
  destruct f64_epsilon; cbn in S; try discriminate. injection S as -> -> ->. cbn [B2R]. unfold F2R. cbn [Fnum Fexp cond_Zopp].
  change (IZR 4503599627370496) with (bpow radix2 52). rewrite <- bpow_plus. reflexivity.
Qed.
Lemma level_near (x : f64) : is_finite x = true -> Rabs (B2R (level_f64 lm x) - level (B2R x)) <= eta /\ Rabs (level (B2R x)) <= 3590.
Proof.
  intros F. unfold level_f64. cbv zeta.
  assert (B40 := bm40).
  destruct (Beqb x (f64_ofZ 0)) eqn:E.
  - assert (X0 : B2R x = 0).
    { apply Beqb_true in E. destruct E as (_ & _ & E). rewrite ofZ_ext, ext_finite in E by (auto; lia). exact E. }
    rewrite X0. assert (LV : level 0 = -45) by (unfold level; destruct Req_EM_T; lra). rewrite LV.
    split; [|apply Rabs_le; lra].
    destruct f64_eps as [Fe Pe]. destruct (HL f64_epsilon Fe Pe) as [Fl El]. rewrite f64_eps_val in El.
    assert (LE : ln (bpow radix2 (-52)) / ln 10 <= -13).
    { pose proof ln10_bnd as L10. apply Rmult_le_reg_r with (ln 10); [lra|]. unfold Rdiv. rewrite Rmult_assoc, Rinv_l, Rmult_1_r by lra.
      replace (-13 * ln 10) with (- (ln (10 ^ 13))) by (rewrite ln_pow by lra; cbn [INR]; ring). rewrite <- ln_Rinv by lra.
      left. apply ln_increasing; [apply bpow_gt_0|]. assert (B52 : bpow radix2 (-52) = / 4503599627370496) by (apply (bpn 52); reflexivity || lia). rewrite B52. lra. }
    pose proof (HLF f64_epsilon Fe Pe) as [_ BL]. apply Rabs_le_inv in BL.
    destruct (Bmult_fin (f64_ofZ 10) (lm_log10 lm f64_epsilon)) as (A & B); try (apply ofZ_fin; lia); auto.
    { rewrite ofZ_B2R by lia. apply (bpow_1000_big _ 14 ltac:(lia)). apply rnd_abs_bpow; [lia|]. change (bpow radix2 14) with 16384. apply Rabs_le. lra. }
    destruct (Bltb (f64_ofZ (-45)) _) eqn:LT; [exfalso|rewrite ofZ_B2R by lia; rewrite Rminus_diag_eq, Rabs_R0 by reflexivity; unfold eta; lra].
    apply Bltb_true in LT. destruct LT as (_ & _ & LT). rewrite ofZ_ext, (ext_finite _ A), B, ofZ_B2R in LT by lia.
    assert (rnd (10 * B2R (lm_log10 lm f64_epsilon)) <= -45); [|lra].
    apply Rle_trans with (rnd (IZR (-45))); [apply rnd_le; apply Rabs_le_inv in El; rewrite B40 in El; lra|rewrite rnd_IZR by (cbn; lia); lra].
  - assert (NZ : B2R x <> 0).
    { intros Z. assert (Beqb x (f64_ofZ 0) = true); [|congruence]. apply Beqb_true. split; [apply is_nan_finite; auto|]. split; [apply ofZ_nan; lia|].
      rewrite ofZ_ext, ext_finite by (auto; lia). auto. }
    assert (FB : is_finite (Babs x) = true) by (rewrite is_finite_Babs; exact F). assert (PB : 0 < B2R (Babs x)) by (rewrite B2R_Babs; apply Rabs_pos_lt; exact NZ).
    destruct (HL (Babs x) FB PB) as [Fl El]. pose proof (log_range (Babs x) FB PB) as LR. rewrite B2R_Babs in El, LR. rewrite B40 in El.
    unfold level. destruct (Req_EM_T (B2R x) 0) as [|_]; [contradiction|].
    set (v := ln (Rabs (B2R x)) / ln 10) in *.
    assert (B41 : bpow radix2 (12 - 53) = / 2199023255552) by (apply (bpn 41); reflexivity || lia).
    pose proof (ap_mult (f64_ofZ 10) (lm_log10 lm (Babs x)) 10 v 0 (/ 1099511627776) 10 359 12 ltac:(lia)) as M.
    destruct M as [A B]; [split; [apply ofZ_fin; lia|rewrite ofZ_B2R by lia; rewrite Rminus_diag_eq, Rabs_R0 by reflexivity; lra]|split; [exact Fl|exact El]|rewrite Rabs_pos_eq; lra|exact LR|change (bpow radix2 12) with 4096; lra|].
    rewrite B41 in B. 
    set (l := Bmult mode_NE (f64_ofZ 10) (lm_log10 lm (Babs x))) in *.
    assert (EX : B2R (if Bltb (f64_ofZ (-45)) l then l else f64_ofZ (-45)) = Rmax (-45) (B2R l)).
    { destruct (Bltb (f64_ofZ (-45)) l) eqn:LT.
      - apply Bltb_true in LT. destruct LT as (_ & _ & LT). rewrite ofZ_ext, (ext_finite _ A) in LT by lia. rewrite Rmax_right; lra.
      - apply Bltb_false in LT; [|apply ofZ_nan; lia|apply is_nan_finite; exact A]. rewrite ofZ_ext, (ext_finite _ A) in LT by lia. rewrite ofZ_B2R by lia. rewrite Rmax_left; lra. }
    match type of EX with _ = ?z => match goal with |- Rabs (B2R ?t - _) <= _ /\ _ => change (B2R t = z) in EX end end. rewrite EX. split; [apply max_near; eapply Rle_trans; [exact B|unfold eta; lra]|].
    apply Rabs_le_inv in LR. apply Rabs_le. unfold Rmax. destruct (Rle_dec _ _); lra.
Qed.

Variables r d : Spectrogram (F64 lm).
Definition twin (s : Spectrogram (F64 lm)) : Spectrogram RN :=
  {| sp_data := mbuild (N:=RN) (mrows (sp_data s)) (mcols (sp_data s)) (fun i j => B2R (mget (sp_data s) i j : f64)); center_freq_bands := [] |}.
Lemma twin_at (s : Spectrogram (F64 lm)) i j x : value_at (twin s) i j x -> exists y : f64, value_at s i j y /\ x = B2R y.
Proof.
  intros (A & B & C). cbn [twin sp_data mbuild mrows mcols] in A, B. exists (mget (sp_data s) i j). split; [repeat split; auto|].
  rewrite <- C. cbn [twin sp_data]. rewrite mget_mbuild by auto. reflexivity.
Qed.
Lemma at_twin (s : Spectrogram (F64 lm)) i j (y : f64) : value_at s i j y -> value_at (twin s) i j (B2R y).
Proof.
  intros (A & B & C). repeat split; auto. cbn [twin sp_data]. rewrite mget_mbuild by auto. rewrite C. reflexivity.
Qed.

Lemma formula_f64 :
  mcols (sp_data d) = mcols (sp_data r) ->
  (1 <= mrows (sp_data r))%nat -> (1 <= mrows (sp_data d))%nat -> (1 <= mcols (sp_data r))%nat ->
  (forall (s : Spectrogram (F64 lm)) i j (x : f64), In s [r; d] -> value_at s i j x -> is_finite x = true) ->
  exists r' d' (peak : nat -> R) (low : R),
    prepare_spectrograms_for_comparison r d = Ok (r', d') /\
    let both := [(r, r'); (d, d')] in
    let raised j x := Rmax (peak j - 45) (level x) in
    (forall s s' i j (x : f64), In (s, s') both -> value_at s i j x ->
       exists y : f64, value_at s' i j y /\ is_finite y = true /\ Rabs (B2R y - (raised j (B2R x) - low)) <= bpow radix2 (-35)) /\
    (forall j, (j < mcols (sp_data r))%nat -> exists s s' i (x : f64), In (s, s') both /\ value_at s i j x /\ level (B2R x) = peak j) /\
    (forall s s' i j (x : f64), In (s, s') both -> value_at s i j x -> level (B2R x) <= peak j) /\
    (exists s s' i j (x : f64), In (s, s') both /\ value_at s i j x /\ raised j (B2R x) = low) /\
    (forall s s' i j (x : f64), In (s, s') both -> value_at s i j x -> low <= raised j (B2R x)).
Proof.
  intros HC H1 H2 H3 HF.
  destruct (C29_R (twin r) (twin d)) as (tr & td & peak & lowR & _ & _ & _ & TP & TU & TL & TB); try (cbn; assumption).
  cbv zeta in TP, TU, TL, TB.
  (* twins *)
  assert (U : forall s i j (x : f64), In s [r; d] -> value_at s i j x -> level (B2R x) <= peak j).
  { intros s i j x Hs Hx. apply at_twin in Hx. destruct Hs as [<-|[<-|[]]]; [apply (TU (twin r) tr i j)|apply (TU (twin d) td i j)]; auto; [left; auto|right; left; auto]. }
  assert (P : forall j, (j < mcols (sp_data r))%nat -> exists s i (x : f64), In s [r; d] /\ value_at s i j x /\ level (B2R x) = peak j).
  { intros j Hj. destruct (TP j Hj) as (s & s' & i & x & Hs & Hx & E). destruct Hs as [Q|[Q|[]]]; injection Q as <- <-; apply twin_at in Hx; destruct Hx as (y & Hy & ->);
      [exists r, i, y|exists d, i, y]; (split; [|split; [exact Hy|exact E]]); [left; auto|right; left; auto]. }
  assert (B : forall s i j (x : f64), In s [r; d] -> value_at s i j x -> lowR <= Rmax (peak j - 45) (level (B2R x))).
  { intros s i j x Hs Hx. apply at_twin in Hx. destruct Hs as [<-|[<-|[]]]; [apply (TB (twin r) tr i j)|apply (TB (twin d) td i j)]; auto; [left; auto|right; left; auto]. }
  assert (LO : exists s i j (x : f64), In s [r; d] /\ value_at s i j x /\ Rmax (peak j - 45) (level (B2R x)) = lowR).
  { destruct TL as (s & s' & i & j & x & Hs & Hx & E). destruct Hs as [Q|[Q|[]]]; injection Q as <- <-; apply twin_at in Hx; destruct Hx as (y & Hy & ->);
      [exists r, i, j, y|exists d, i, j, y]; (split; [|split; [exact Hy|exact E]]); [left; auto|right; left; auto]. }
  clear TP TU TL TB.
  (* the computation *)
  assert (COL : forall s i j (x : f64), In s [r; d] -> value_at s i j x -> (j < mcols (sp_data r))%nat).
  { intros s i j x [<-|[<-|[]]] (_ & Hj & _); [exact Hj|rewrite <- HC; exact Hj]. }
  assert (FR : forall i j, (i < mrows (sp_data r))%nat -> (j < mcols (sp_data r))%nat -> is_finite (mget (sp_data r) i j : f64) = true) by (intros i j Hi Hj; apply (HF r i j); [left; auto|repeat split; auto]).
  assert (FD : forall i j, (i < mrows (sp_data d))%nat -> (j < mcols (sp_data r))%nat -> is_finite (mget (sp_data d) i j : f64) = true) by (intros i j Hi Hj; apply (HF d i j); [right; left; auto|repeat split; auto; lia]).
  assert (LR : forall i j, (i < mrows (sp_data r))%nat -> (j < mcols (sp_data r))%nat -> ffin (lev (sp_data r) i j)) by (intros i j Hi Hj; rewrite lev_level_f64 by auto; apply level_f64_fin; auto).
  assert (LD : forall i j, (i < mrows (sp_data d))%nat -> (j < mcols (sp_data r))%nat -> ffin (lev (sp_data d) i j)) by (intros i j Hi Hj; rewrite lev_level_f64 by auto; apply level_f64_fin; auto).
  destruct (prep_gen (N:=F64 lm) _ _ _ (f64_num_order lm) r d HC (conj H1 (conj H2 H3)) LR LD)
    as (pk & L & low & r' & d' & E & Er & Ed & HLp & Flow & Hlow & Hr & Hd).
  exists r', d', peak, lowR. split; [exact E|]. cbv zeta.
  set (raise := fun j (x : f64) => @nmax (F64 lm) (L j) (level_f64 lm x) : f64).
  assert (PK : forall j, (j < mcols (sp_data r))%nat -> ffin (L j) /\ ffin (pk j) /\ L j = Bminus mode_NE (pk j) (f64_ofZ 45) /\ Rabs (B2R (pk j : f64) - peak j) <= eta).
  { intros j Hj. destruct (HLp j Hj) as (EL & FL & FP & AT & M1 & M2). split; [exact FL|]. split; [exact FP|]. split; [exact EL|].
    assert (UP : forall s i (x : f64), In s [r; d] -> value_at s i j x -> B2R (level_f64 lm x) <= B2R (pk j : f64)).
    { intros s i x Hs Hx. pose proof (HF s i j x Hs Hx) as Fx. pose proof (level_f64_fin lm x HLF Fx) as Fl. destruct Hx as (Hi & _ & Hv).
      rewrite <- (ext_finite _ (proj1 Fl)), <- (ext_finite _ (proj1 FP)). rewrite <- Hv.
      destruct Hs as [<-|[<-|[]]]; [rewrite <- lev_level_f64 by (auto; rewrite Hv; exact Fx); apply M1; exact Hi|rewrite <- lev_level_f64 by (auto; rewrite Hv; exact Fx); apply M2; exact Hi]. }
    assert (AT' : exists s i (x : f64), In s [r; d] /\ value_at s i j x /\ (pk j : f64) = level_f64 lm x).
    { destruct AT as [(i & Hi & Q)|(i & Hi & Q)]; [exists r, i, (mget (sp_data r) i j)|exists d, i, (mget (sp_data d) i j)].
      - split; [left; auto|]. split; [repeat split; auto|]. rewrite Q. apply lev_level_f64; auto.
      - split; [right; left; auto|]. split; [repeat split; auto; lia|]. rewrite Q. apply lev_level_f64; auto. }
    destruct AT' as (s & i & x & Hs & Hx & Q). destruct (P j Hj) as (t & k & y & Ht & Hy & Q').
    destruct (level_near x (HF _ _ _ _ Hs Hx)) as [N1 _]. destruct (level_near y (HF _ _ _ _ Ht Hy)) as [N2 _].
    pose proof (U _ _ _ _ Hs Hx) as U1. pose proof (UP _ _ _ Ht Hy) as U2. rewrite Q in *. rewrite <- Q' in *. apply Rabs_le_inv in N1, N2. apply Rabs_le. lra. }
  assert (B40 := bm40).
  assert (PB : forall j, (j < mcols (sp_data r))%nat -> Rabs (peak j) <= 3590).
  { intros j Hj. destruct (P j Hj) as (s & i & x & Hs & Hx & <-). apply level_near. eapply HF; eauto. }
  assert (RA : forall s i j (x : f64), In s [r; d] -> value_at s i j x ->
     ffin (raise j x) /\ B2R (low : f64) <= B2R (raise j x) /\ Rabs (B2R (raise j x) - Rmax (peak j - 45) (level (B2R x))) <= eta + / 1099511627776).
  { intros s i j x Hs Hx. pose proof (COL _ _ _ _ Hs Hx) as Hj. pose proof (HF _ _ _ _ Hs Hx) as Fx. destruct (PK j Hj) as (FL & FP & EL & NP).
    pose proof (level_f64_fin lm x HLF Fx) as Fl.
    assert (FM : ffin (raise j x) /\ ext (low : f64) <= ext (raise j x)).
    { unfold raise. destruct Hx as (Hi & _ & <-). destruct Hs as [<-|[<-|[]]]; rewrite <- lev_level_f64 by auto; auto. }
    destruct FM as [FM LE]. rewrite (ext_finite _ (proj1 FM)), (ext_finite _ (proj1 Flow)) in LE. split; [exact FM|]. split; [exact LE|].
    assert (EM : B2R (raise j x) = Rmax (B2R (L j : f64)) (B2R (level_f64 lm x))).
    { destruct (nmax_spec (N:=F64 lm) _ _ _ (f64_num_order lm) (L j) (level_f64 lm x)) as (_ & _ & Q); [apply is_nan_finite, FL|apply is_nan_finite, Fl|].
      fold (raise j x) in Q. rewrite (ext_finite _ (proj1 FM)), (ext_finite _ (proj1 Fl)) in Q. rewrite (ext_finite (L j : f64) (proj1 FL)) in Q. exact Q. }
    rewrite EM. destruct (level_near x Fx) as [N1 _].
    apply max_near2; [eapply Rle_trans; [exact N1|unfold eta; lra]|].
    assert (R1 : B2R (L j : f64) = rnd (B2R (pk j : f64) - 45)).
    { rewrite EL. destruct (sub_small (pk j) (f64_ofZ 45)) as (_ & Q); try (apply ofZ_fin; lia); [apply FP|destruct FP; lra|rewrite ofZ_B2R by lia; apply Rabs_le; lra|].
      rewrite Q, ofZ_B2R by lia. reflexivity. }
    rewrite R1. pose proof (PB j Hj) as BP. apply Rabs_le_inv in NP, BP.
    pose proof (rnd_err (B2R (pk j : f64) - 45) 12 ltac:(lia)) as RE. 
    assert (B41 : bpow radix2 (12 - 53) = / 2199023255552) by (apply (bpn 41); reflexivity || lia). rewrite B41 in RE.
    assert (RB : Rabs (B2R (pk j : f64) - 45) <= bpow radix2 12) by (change (bpow radix2 12) with 4096; apply Rabs_le; unfold eta in *; lra).
    specialize (RE RB). apply Rabs_le_inv in RE. apply Rabs_le. unfold eta in *. lra. }
  assert (LN : Rabs (B2R (low : f64) - lowR) <= eta + / 1099511627776).
  { destruct LO as (s & i & j & x & Hs & Hx & Q). destruct (RA _ _ _ _ Hs Hx) as (_ & A1 & A2). rewrite Q in A2.
    assert (AT : exists t k j2 (y : f64), In t [r; d] /\ value_at t k j2 y /\ (low : f64) = raise j2 y).
    { destruct Hlow as [(k & j2 & Hi & Hj & X)|(k & j2 & Hi & Hj & X)]; [exists r, k, j2, (mget (sp_data r) k j2)|exists d, k, j2, (mget (sp_data d) k j2)].
      - split; [left; auto|]. split; [repeat split; auto|]. rewrite X. unfold raise. rewrite <- lev_level_f64 by auto. reflexivity.
      - split; [right; left; auto|]. split; [repeat split; auto; lia|]. rewrite X. unfold raise. rewrite <- lev_level_f64 by auto. reflexivity. }
    destruct AT as (t & k & j2 & y & Ht & Hy & X). destruct (RA _ _ _ _ Ht Hy) as (_ & _ & A4). rewrite <- X in A4. pose proof (B _ _ _ _ Ht Hy) as A5.
    apply Rabs_le_inv in A2, A4. apply Rabs_le. lra. }
  assert (SN : forall s s', In (s, s') [(r, r'); (d, d')] -> In s [r; d]) by (intros s s' [Q|[Q|[]]]; injection Q as <- <-; [left|right; left]; reflexivity).
  split; [|split; [|split; [|split]]].
  - intros s s' i j x Hs Hx. pose proof (SN _ _ Hs) as Hi. exists (Bminus mode_NE (raise j x) low).
    pose proof (COL _ _ _ _ Hi Hx) as Hj. pose proof (HF _ _ _ _ Hi Hx) as Fx.
    destruct (RA _ _ _ _ Hi Hx) as (FM & LE & N1).
    split.
    { destruct Hx as (Hr' & _ & Hv). destruct Hs as [Q|[Q|[]]]; injection Q as <- <-; unfold value_at; [rewrite Er|rewrite Ed]; cbn [with_data sp_data mbuild mrows mcols];
        (split; [exact Hr'|]; split; [exact Hj|]; rewrite mget_mbuild by auto; rewrite lev_level_f64 by auto; rewrite Hv; reflexivity). }
    destruct (sub_small (raise j x) low) as (A1 & A2); [apply FM|apply Flow|destruct FM; lra|destruct Flow; lra|].
    split; [exact A1|]. rewrite A2.
    assert (LB : Rabs (Rmax (peak j - 45) (level (B2R x))) <= 3640).
    { pose proof (PB j Hj) as K1. destruct (level_near x Fx) as [_ K2]. apply Rabs_le_inv in K1, K2. apply Rabs_le. unfold Rmax. destruct (Rle_dec _ _); lra. }
    assert (LB2 : Rabs lowR <= 3640).
    { destruct LO as (s2 & i2 & j2 & x2 & Hs2 & Hx2 & <-). pose proof (PB j2 (COL _ _ _ _ Hs2 Hx2)) as K1. destruct (level_near x2 (HF _ _ _ _ Hs2 Hx2)) as [_ K2].
      apply Rabs_le_inv in K1, K2. apply Rabs_le. unfold Rmax. destruct (Rle_dec _ _); lra. }
    pose proof (rnd_err (B2R (raise j x) - B2R (low : f64)) 13 ltac:(lia)) as RE.
    apply Rabs_le_inv in N1, LN, LB, LB2.
    assert (RB : Rabs (B2R (raise j x) - B2R (low : f64)) <= bpow radix2 13) by (change (bpow radix2 13) with 8192; apply Rabs_le; unfold eta in *; lra).
    specialize (RE RB). change (13 - 53)%Z with (-40)%Z in RE. rewrite B40 in RE. apply Rabs_le_inv in RE.
    assert (B35 : bpow radix2 (-35) = / 34359738368) by (apply (bpn 35); reflexivity || lia). rewrite B35. apply Rabs_le. unfold eta in *. lra.
  - intros j Hj. destruct (P j Hj) as (s & i & x & Hs & Hx & Q). destruct Hs as [<-|[<-|[]]]; [exists r, r', i, x|exists d, d', i, x]; (split; [|split; assumption]); [left|right; left]; reflexivity.
  - intros s s' i j x Hs Hx. eapply U; [eapply SN; exact Hs|exact Hx].
  - destruct LO as (s & i & j & x & Hs & Hx & Q). destruct Hs as [<-|[<-|[]]]; [exists r, r', i, j, x|exists d, d', i, j, x]; (split; [|split; assumption]); [left|right; left]; reflexivity.
  - intros s s' i j x Hs Hx. eapply B; [eapply SN; exact Hs|exact Hx].
Qed.
End F.
