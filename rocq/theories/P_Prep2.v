(** C29 in f64, and the consequences of the exact formula. *)
From Coq Require Import Reals Lra Lia.
From Flocq Require Import Core IEEE754.BinarySingleNaN.
From Verif Require Import Base Num Mat F64 RNum M_Audio M_Align M_Spectro.
From Verif Require Import P_Base P_Mat P_F64 P_Score Spec Spec2 P_Win P_Prep.
Open Scope R_scope.

Lemma C29_R_props (r d r' d' : Spectrogram RN) :
  mcols (sp_data d) = mcols (sp_data r) ->
  (1 <= mrows (sp_data r))%nat -> (1 <= mrows (sp_data d))%nat -> (1 <= mcols (sp_data r))%nat ->
  prepare_spectrograms_for_comparison r d = Ok (r', d') ->
  let both := [(r, r'); (d, d')] in
  (forall s s' i j y, In (s, s') both -> value_at s' i j y -> 0 <= y) /\
  (exists s s' i j, In (s, s') both /\ value_at s' i j (0 : R)) /\
  (forall s s' i y t t' k z j, In (s, s') both -> In (t, t') both ->
     value_at s' i j y -> value_at t' k j z -> y <= z + 45) /\
  (forall s s' i x y t t' k u v j, In (s, s') both -> In (t, t') both ->
     value_at s i j x -> value_at s' i j y -> value_at t k j u -> value_at t' k j v ->
     Rabs x <= Rabs u -> y <= v).
Proof.
  intros HC H1 H2 H3 E. destruct (C29_R r d HC H1 H2 H3) as (a & b & peak & low & E' & F). rewrite E in E'.
  assert (X : a = r' /\ b = d') by (inversion E'; auto). destruct X as (-> & ->). cbv zeta in *.
  destruct F as (Sh & Val & Pk & Pm & Low & Lm).
  assert (G : forall s s' i j y, In (s, s') [(r, r'); (d, d')] -> value_at s' i j y ->
     exists x, value_at s i j x /\ y = Rmax (peak j - 45) (level x) - low).
  { intros s s' i j y I (A & B & C). destruct (Sh s s' I) as (_ & R1 & R2 & _).
    assert (V : value_at s i j (mget (sp_data s) i j)) by (repeat split; [rewrite <- R1|rewrite <- R2]; auto).
    exists (mget (sp_data s) i j). split; auto. destruct (Val s s' i j _ I V) as (_ & _ & Q). rewrite <- C. exact Q. }
  split; [|split; [|split]].
  - intros s s' i j y I V. destruct (G _ _ _ _ _ I V) as (x & Vx & ->). pose proof (Lm _ _ _ _ _ I Vx). lra.
  - destruct Low as (s & s' & i & j & x & I & V & Q). exists s, s', i, j. split; auto. pose proof (Val _ _ _ _ _ I V) as W.
    rewrite Q in W. replace (low - low) with 0 in W by ring. exact W.
  - intros s s' i y t t' k z j I J V W. destruct (G _ _ _ _ _ I V) as (x & Vx & ->). destruct (G _ _ _ _ _ J W) as (u & Vu & ->).
    pose proof (Pm _ _ _ _ _ I Vx). pose proof (Rmax_l (peak j - 45) (level u)).
    assert (Rmax (peak j - 45) (level x) <= peak j) by (apply Rmax_lub; lra). lra.
  - intros s s' i x y t t' k u v j I J Vx Vy Vu Vv L.
    destruct (Val _ _ _ _ _ I Vx) as (_ & _ & Qy). destruct (Val _ _ _ _ _ J Vu) as (_ & _ & Qv).
    destruct Vy as (_ & _ & Ey). destruct Vv as (_ & _ & Ev). rewrite <- Ey, <- Ev, Qy, Qv.
    apply Rplus_le_compat_r. apply Rle_max_compat_l. apply level_mono. auto.
Qed.

(** ** f64 *)
Section F.
Variable lm : Libm.
Definition ffin (x : f64) : Prop := is_finite x = true /\ Rabs (B2R x) <= IZR 20000.
Lemma sub_small (x y : f64) : is_finite x = true -> is_finite y = true -> Rabs (B2R x) <= IZR 50000 -> Rabs (B2R y) <= IZR 50000 ->
  is_finite (Bminus mode_NE x y) = true /\ B2R (Bminus mode_NE x y) = rnd (B2R x - B2R y).
Proof.
  intros Fx Fy Hx Hy. apply Bminus_fin; auto. apply small_lt_big. apply Rle_trans with (bpow radix2 17).
  - change (bpow radix2 17) with (IZR 131072). apply Rabs_le. apply Rabs_le_inv in Hx, Hy. lra.
  - apply bpow_le. lia.
Qed.
Lemma m45 : @nneg (F64 lm) (@nofZ (F64 lm) 45) = f64_ofZ (-45).
Proof. apply B2SF_inj. vm_compute. reflexivity. Qed.
Lemma f64_num_order : num_order (F64 lm) ext (fun x : f64 => is_nan x = false) ffin.
Proof.
  constructor.
  - intros x y Gx Gy. change (nltb (F64 lm) x y) with (Bltb x y). rewrite Bltb_true. tauto.
  - intros x y Gx Gy. change (neqb (F64 lm) x y) with (Beqb x y). rewrite Beqb_true. tauto.
  - intros x. unfold nis_nan. change (neqb (F64 lm) x x) with (Beqb x x). rewrite Beqb_refl_nan, negb_involutive. reflexivity.
  - intros x (H & _). apply is_nan_finite. auto.
  - intros x y (Hx & _) (Hy & _). exact (proj1 (Bminus_ext x y Hx Hy)).
  - intros x y z (Hx & Bx) (Hy & By) (Hz & Bz) H. assert (L : Bleb x y = true) by (apply Bleb_true; auto using is_nan_finite).
    pose proof (Bminus_mono x y z Hz L) as M. apply Bleb_true in M. tauto.
  - intros x (Hx & Bx). destruct (sub_small x x) as (A & B); auto; try lra. change (ext (Bminus mode_NE x x) = 0).
    rewrite ext_finite by exact A. rewrite B. replace (B2R x - B2R x) with (IZR 0) by (cbn; ring). apply rnd_IZR. cbn; lia.
  - rewrite m45. split; [apply ofZ_fin; lia|]. rewrite ofZ_B2R by lia. apply Rabs_le. lra.
  - rewrite m45. intros x (Hx & Bx) H. rewrite ofZ_ext in H by lia. rewrite ext_finite in H by auto.
    change (ffin (Bminus mode_NE x (f64_ofZ 45))).
    destruct (sub_small x (f64_ofZ 45)) as (A & B); try (apply ofZ_fin; lia); auto; try lra; [rewrite ofZ_B2R by lia; apply Rabs_le; lra|].
    split; auto. rewrite B, ofZ_B2R by lia. apply Rabs_le_inv in Bx. apply Rabs_le. split.
    + apply Rle_trans with (rnd (IZR (-20000))); [rewrite rnd_IZR by (cbn; lia); lra|apply rnd_le; lra].
    + apply Rle_trans with (rnd (IZR 20000)); [apply rnd_le; lra|rewrite rnd_IZR by (cbn; lia); lra].
Qed.
Lemma f64_eps : is_finite f64_epsilon = true /\ 0 < B2R f64_epsilon.
Proof.
  split; [vm_compute; reflexivity|]. assert (S : B2SF f64_epsilon = SpecFloat.S754_finite false 4503599627370496 (-104)) by (vm_compute; reflexivity).
  destruct f64_epsilon; cbn in S; try discriminate. injection S as -> -> ->. cbn [B2R]. apply F2R_gt_0. cbn. lia.
Qed.
Lemma level_f64_fin x : log10_finite lm -> is_finite x = true -> ffin (level_f64 lm x).
Proof.
  intros HL Fx. unfold level_f64. cbv zeta.
  assert (P : let y := if Beqb x (f64_ofZ 0) then f64_epsilon else Babs x in is_finite y = true /\ 0 < B2R y).
  { cbv zeta. destruct (Beqb x (f64_ofZ 0)) eqn:E; [apply f64_eps|]. rewrite is_finite_Babs, B2R_Babs. split; auto. apply Rabs_pos_lt. intros Z.
    assert (Beqb x (f64_ofZ 0) = true); [|congruence]. apply Beqb_true. split; [apply is_nan_finite; auto|]. split; [apply ofZ_nan; lia|].
    rewrite ofZ_ext, ext_finite by (auto; lia). auto. }
  cbv zeta in P. destruct P as (Fy & Py). set (y := if Beqb x (f64_ofZ 0) then _ else _) in *. destruct (HL y Fy Py) as (Fl & Bl).
  assert (Q : Rabs (rnd (B2R (f64_ofZ 10) * B2R (lm_log10 lm y))) <= IZR 10000).
  { rewrite ofZ_B2R by lia. apply Rabs_le_inv in Bl. apply Rabs_le. split.
    - apply Rle_trans with (rnd (IZR (-10000))); [rewrite rnd_IZR by (cbn; lia); lra|apply rnd_le; lra].
    - apply Rle_trans with (rnd (IZR 10000)); [apply rnd_le; lra|rewrite rnd_IZR by (cbn; lia); lra]. }
  destruct (Bmult_fin (f64_ofZ 10) (lm_log10 lm y)) as (A & B); try (apply ofZ_fin; lia); auto.
  { eapply Rle_lt_trans; [apply Q|]. apply Rlt_le_trans with (bpow radix2 14); [change (bpow radix2 14) with (IZR 16384); lra|]. unfold big. apply bpow_le. lia. }
  destruct Bltb.
  - split; [exact A|]. rewrite B. lra.
  - split; [apply ofZ_fin; lia|]. rewrite ofZ_B2R by lia. apply Rabs_le. lra.
Qed.
Lemma lev_level_f64 (m : mat (F64 lm)) i j : log10_finite lm -> is_finite (mget m i j : f64) = true -> lev m i j = level_f64 lm (mget m i j).
Proof.
  intros HL Fx. unfold lev. rewrite m45.
  change (sample_to_db (mget m i j)) with (Bmult mode_NE (f64_ofZ 10) (lm_log10 lm (if Beqb (mget m i j) (f64_ofZ 0) then f64_epsilon else Babs (mget m i j)))).
  pose proof (level_f64_fin _ HL Fx) as (F & _). unfold level_f64 in *. cbv zeta in *.
  set (l := Bmult mode_NE _ _) in *. unfold nmax, nis_nan.
  change (neqb (F64 lm) ?a ?b) with (Beqb a b). change (nltb (F64 lm) ?a ?b) with (Bltb a b). rewrite !Beqb_refl_nan, !negb_involutive.
  rewrite ofZ_nan by lia. destruct (is_nan l) eqn:E; auto.
  destruct (Bltb (f64_ofZ (-45)) l) eqn:X; auto. apply Bltb_true in X. destruct X as (_ & X & _). congruence.
Qed.
Notation f64_nmax := (@nmax (F64 lm)).
Lemma C29_f64 (r d : Spectrogram (F64 lm)) :
  log10_finite lm ->
  mcols (sp_data d) = mcols (sp_data r) ->
  (1 <= mrows (sp_data r))%nat -> (1 <= mrows (sp_data d))%nat -> (1 <= mcols (sp_data r))%nat ->
  (forall s i j (x : f64), In s [r; d] -> value_at s i j x -> is_finite x = true) ->
  exists r' d',
  prepare_spectrograms_for_comparison r d = Ok (r', d') /\
  let both := [(r, r'); (d, d')] in
  (forall s s', In (s, s') both -> mat_wf (sp_data s') /\ mrows (sp_data s') = mrows (sp_data s) /\
     mcols (sp_data s') = mcols (sp_data s) /\ center_freq_bands s' = center_freq_bands s) /\
  (forall s s' i j (y : f64), In (s, s') both -> value_at s' i j y -> is_finite y = true /\ 0 <= B2R y) /\
  (exists s s' i j (y : f64), In (s, s') both /\ value_at s' i j y /\ B2R y = 0) /\
  (forall s s' i (y : f64) t t' k (z : f64) j, In (s, s') both -> In (t, t') both ->
     value_at s' i j y -> value_at t' k j z -> B2R y <= B2R z + 45 + bpow radix2 (-35)) /\
  (forall s s' i (x y : f64) t t' k (u v : f64) j, In (s, s') both -> In (t, t') both ->
     value_at s i j x -> value_at s' i j y -> value_at t k j u -> value_at t' k j v ->
     Bleb (level_f64 lm x) (level_f64 lm u) = true -> Bleb y v = true).
Proof.
  intros HL HC H1 H2 H3 HF.
  assert (FR : forall i j, (i < mrows (sp_data r))%nat -> (j < mcols (sp_data r))%nat -> is_finite (mget (sp_data r) i j : f64) = true) by (intros i j Hi Hj; apply (HF r i j); [left; auto|repeat split; auto]).
  assert (FD : forall i j, (i < mrows (sp_data d))%nat -> (j < mcols (sp_data r))%nat -> is_finite (mget (sp_data d) i j : f64) = true) by (intros i j Hi Hj; apply (HF d i j); [right; left; auto|repeat split; auto; lia]).
  assert (LR : forall i j, (i < mrows (sp_data r))%nat -> (j < mcols (sp_data r))%nat -> ffin (lev (sp_data r) i j)) by (intros i j Hi Hj; rewrite lev_level_f64 by auto; apply level_f64_fin; auto).
  assert (LD : forall i j, (i < mrows (sp_data d))%nat -> (j < mcols (sp_data r))%nat -> ffin (lev (sp_data d) i j)) by (intros i j Hi Hj; rewrite lev_level_f64 by auto; apply level_f64_fin; auto).
  destruct (prep_gen (N:=F64 lm) _ _ _ f64_num_order r d HC (conj H1 (conj H2 H3)) LR LD)
    as (pk & L & low & r' & d' & E & Er & Ed & HLp & Flow & Hlow & Hr & Hd).
  exists r', d'. split; auto. cbv zeta.
  (* one view of both *)
  assert (Sh : forall s s', In (s, s') [(r, r'); (d, d')] -> mat_wf (sp_data s') /\ mrows (sp_data s') = mrows (sp_data s) /\
     mcols (sp_data s') = mcols (sp_data s) /\ center_freq_bands s' = center_freq_bands s).
  { intros s s' [X|[X|[]]]; inversion X; subst s s'; [rewrite Er|rewrite Ed]; cbn [with_data sp_data center_freq_bands mbuild mrows mcols]; repeat split; auto; try apply mbuild_wf. }
  assert (V : forall s s' i j (y : f64), In (s, s') [(r, r'); (d, d')] -> value_at s' i j y ->
     exists x : f64, value_at s i j x /\ is_finite x = true /\ (j < mcols (sp_data r))%nat /\
       y = Bminus mode_NE (f64_nmax (L j) (level_f64 lm x)) low /\ ffin (f64_nmax (L j) (level_f64 lm x)) /\
       ext low <= ext (f64_nmax (L j) (level_f64 lm x)) /\ ffin (level_f64 lm x) /\ ext (level_f64 lm x) <= ext (pk j)).
  { intros s s' i j y I (A & B & C). destruct (Sh s s' I) as (_ & R1 & R2 & _). rewrite R1 in A. rewrite R2 in B.
    exists (mget (sp_data s) i j). split; [repeat split; auto|]. destruct I as [X|[X|[]]]; inversion X; subst s s'.
    - pose proof (FR i j A B) as Fx. split; auto. split; auto. rewrite <- (lev_level_f64 (sp_data r) i j) by auto.
      destruct (Hr i j A B) as (Q1 & Q2). destruct (HLp j B) as (_ & _ & _ & _ & M1 & M2). refine (conj _ (conj Q1 (conj Q2 (conj (LR i j A B) (M1 i A))))).
      rewrite <- C, Er. cbn [with_data sp_data]. rewrite mget_mbuild by auto. reflexivity.
    - rewrite HC in B. pose proof (FD i j A B) as Fx. split; auto. split; auto. rewrite <- (lev_level_f64 (sp_data d) i j) by auto.
      destruct (Hd i j A B) as (Q1 & Q2). destruct (HLp j B) as (_ & _ & _ & _ & M1 & M2). refine (conj _ (conj Q1 (conj Q2 (conj (LD i j A B) (M2 i A))))).
      rewrite <- C, Ed. cbn [with_data sp_data]. rewrite mget_mbuild by auto. reflexivity. }
  assert (MX : forall j x, (j < mcols (sp_data r))%nat -> ffin (level_f64 lm x) -> ext (f64_nmax (L j) (level_f64 lm x)) = Rmax (ext (L j)) (ext (level_f64 lm x))).
  { intros j x Hj Fx. destruct (HLp j Hj) as (_ & FL & _). 
    destruct (nmax_spec (N:=F64 lm) _ _ _ f64_num_order (L j) (level_f64 lm x)) as (_ & _ & H).
    - apply is_nan_finite, FL. - apply is_nan_finite, Fx. - exact H. }
  assert (SUB : forall x : f64, ffin x -> is_finite (Bminus mode_NE x low) = true /\ B2R (Bminus mode_NE x low) = rnd (B2R x - B2R low)).
  { intros x (F & B). destruct Flow as (F2 & B2). apply sub_small; auto; lra. }
  split; [exact Sh|]. split; [|split; [|split]].
  - intros s s' i j y I Vy. destruct (V _ _ _ _ _ I Vy) as (x & _ & Fx & Hj & -> & FM & LM & _).
    destruct (SUB _ FM) as (A & B). split; [exact A|]. rewrite B. apply rnd_sign. rewrite !ext_finite in LM by (apply Flow || apply FM). lra.
  - assert (Z : exists s s' i j, In (s, s') [(r, r'); (d, d')] /\ value_at s' i j (Bminus mode_NE low low)).
    { destruct Hlow as [(i & j & Hi & Hj & X)|(i & j & Hi & Hj & X)].
      - exists r, r', i, j. split; [left; auto|]. rewrite Er. unfold value_at. cbn [with_data sp_data]. split; [exact Hi|]. split; [exact Hj|].
        rewrite mget_mbuild by auto. rewrite <- X. reflexivity.
      - exists d, d', i, j. split; [right; left; auto|]. rewrite Ed. unfold value_at. cbn [with_data sp_data]. split; [exact Hi|]. split; [exact Hj|].
        rewrite mget_mbuild by auto. rewrite <- X. reflexivity. }
    destruct Z as (s & s' & i & j & I & W). exists s, s', i, j, (Bminus mode_NE low low). split; auto. split; auto.
    destruct (SUB _ Flow) as (A & B). rewrite B. replace (B2R low - B2R low) with (IZR 0) by (cbn; ring). apply rnd_IZR. cbn; lia.
  - intros s s' i y t t' k z j I J Vy Vz.
    destruct (V _ _ _ _ _ I Vy) as (x & _ & Fx & Hj & -> & FM & LM & Flx & PX).
    destruct (V _ _ _ _ _ J Vz) as (u & _ & Fu & _ & -> & FM2 & LM2 & Flu & PU).
    destruct (SUB _ FM) as (_ & B). destruct (SUB _ FM2) as (_ & B2). rewrite B, B2.
    pose proof (MX j x Hj Flx) as M1. pose proof (MX j u Hj Flu) as M2.
    destruct (HLp j Hj) as (EL & FL & FP & _).
    assert (FL' : is_finite (L j : f64) = true) by apply FL. assert (FP' : is_finite (pk j : f64) = true) by apply FP.
    rewrite (ext_finite _ (proj1 FM)), (ext_finite _ FL'), (ext_finite _ (proj1 Flx)) in M1. rewrite (ext_finite _ (proj1 FM2)), (ext_finite _ FL'), (ext_finite _ (proj1 Flu)) in M2.
    rewrite (ext_finite _ FP'), (ext_finite _ (proj1 Flx)) in PX.
    assert (R1 : B2R (L j) = rnd (B2R (pk j) - 45)).
    { rewrite EL. change (B2R (Bminus mode_NE (pk j) (f64_ofZ 45)) = rnd (B2R (pk j) - 45)).
      destruct (sub_small (pk j) (f64_ofZ 45)) as (_ & Q); try (apply ofZ_fin; lia); auto; [destruct FP; lra|rewrite ofZ_B2R by lia; apply Rabs_le; lra|].
      rewrite Q, ofZ_B2R by lia. reflexivity. }
    destruct FM as (_ & BM). destruct FM2 as (_ & BM2). destruct Flow as (_ & BL). destruct FP as (_ & BP). destruct FL as (_ & BLj).
    apply Rabs_le_inv in BM, BM2, BL, BP, BLj.
    set (m1 := B2R (f64_nmax (L j) (level_f64 lm x))) in *. set (m2 := B2R (f64_nmax (L j) (level_f64 lm u))) in *. set (lo := B2R low) in *. set (p := B2R (pk j)) in *.
    assert (E1 : Rabs (rnd (m1 - lo) - (m1 - lo)) <= bpow radix2 (17 - 53)) by (apply rnd_err; [lia|]; change (bpow radix2 17) with (IZR 131072); apply Rabs_le; lra).
    assert (E2 : Rabs (rnd (m2 - lo) - (m2 - lo)) <= bpow radix2 (16 - 53)).
    { apply rnd_err; [lia|]. change (bpow radix2 16) with (IZR 65536); apply Rabs_le; lra. }
    assert (E3 : Rabs (rnd (p - 45) - (p - 45)) <= bpow radix2 (15 - 53)) by (apply rnd_err; [lia|]; change (bpow radix2 15) with (IZR 32768); apply Rabs_le; lra).
    assert (LP : B2R (L j) <= p). { rewrite R1. unfold p. rewrite <- (rnd_id (B2R (pk j))) at 2 by apply gf_B2R. apply rnd_le. unfold p in *; lra. }
    assert (m1 <= p) by (rewrite M1; apply Rmax_lub; auto). pose proof (Rmax_l (B2R (L j)) (B2R (level_f64 lm u))) as Q. rewrite <- M2 in Q.
    assert (E1' : Rabs (rnd (m1 - lo) - (m1 - lo)) <= bpow radix2 (16 - 53)) by (apply rnd_err; [lia|]; change (bpow radix2 16) with (IZR 65536); apply Rabs_le; lra).
    change (16 - 53)%Z with (-37)%Z in *. change (15 - 53)%Z with (-38)%Z in *.
    assert (P1 : bpow radix2 (-37) = bpow radix2 (-35) / 4) by (change (-37)%Z with (-35 + -2)%Z; rewrite bpow_plus; cbn [bpow]; change (IZR (Z.pow_pos radix2 2)) with 4; reflexivity).
    assert (P2 : bpow radix2 (-38) = bpow radix2 (-35) / 8) by (change (-38)%Z with (-35 + -3)%Z; rewrite bpow_plus; cbn [bpow]; change (IZR (Z.pow_pos radix2 3)) with 8; reflexivity).
    pose proof (bpow_gt_0 radix2 (-35)). apply Rabs_le_inv in E1', E2, E3. rewrite P1 in *. rewrite P2 in *. lra.
  - intros s s' i x y t t' k u v j I J Vx Vy Vu Vv HH.
    destruct (V _ _ _ _ _ I Vy) as (x0 & Vx0 & Fx & Hj & -> & FM & LM & Flx & PX).
    destruct (V _ _ _ _ _ J Vv) as (u0 & Vu0 & Fu & _ & -> & FM2 & LM2 & Flu & PU).
    assert (x0 = x) by (destruct Vx as (_ & _ & <-), Vx0 as (_ & _ & <-); reflexivity). subst x0.
    assert (u0 = u) by (destruct Vu as (_ & _ & <-), Vu0 as (_ & _ & <-); reflexivity). subst u0.
    apply Bminus_mono; [apply Flow|]. apply Bleb_true. apply Bleb_true in HH. split; [apply is_nan_finite, FM|]. split; [apply is_nan_finite, FM2|].
    rewrite !MX by auto. apply Rle_max_compat_l. apply HH.
Qed.
End F.

(** ** Small cases *)
Definition prep_r : Spectrogram RN := {| sp_data := @Build_mat RN 2 1 [[1]; [0]]; center_freq_bands := [100; 200] |}.
Definition prep_d : Spectrogram RN := {| sp_data := @Build_mat RN 2 1 [[10]; [/ 10]]; center_freq_bands := [100; 200] |}.
Lemma prep_small : exists r' d', prepare_spectrograms_for_comparison prep_r prep_d = Ok (r', d') /\
  value_at r' 0 0 (35 : R) /\ value_at r' 1 0 (0 : R) /\ value_at d' 0 0 (45 : R) /\ value_at d' 1 0 (25 : R).
Proof.
  destruct (C29_R prep_r prep_d) as (r' & d' & peak & low & E & F); try (cbn; lia). exists r', d'. split; auto. cbv zeta in F.
  destruct F as (Sh & Val & Pk & Pm & Low & Lm).
  assert (I1 : In (prep_r, r') [(prep_r, r'); (prep_d, d')]) by (left; auto). assert (I2 : In (prep_d, d') [(prep_r, r'); (prep_d, d')]) by (right; left; auto).
  assert (V1 : value_at prep_r 0 0 (1 : R)) by (repeat split; cbn; lia). assert (V2 : value_at prep_r 1 0 (0 : R)) by (repeat split; cbn; lia).
  assert (V3 : value_at prep_d 0 0 (10 : R)) by (repeat split; cbn; lia). assert (V4 : value_at prep_d 1 0 (/ 10 : R)) by (repeat split; cbn; lia).
  pose proof ln10_pos as LP.
  assert (L1 : level 1 = 0) by (unfold level; destruct Req_EM_T; [lra|]; rewrite Rabs_pos_eq, ln_1 by lra; rewrite Rmax_right; unfold Rdiv; lra).
  assert (L2 : level 0 = -45) by (unfold level; destruct Req_EM_T; lra).
  assert (L3 : level 10 = 10) by (unfold level; destruct Req_EM_T; [lra|]; rewrite Rabs_pos_eq by lra; unfold Rdiv; rewrite Rinv_r by lra; rewrite Rmax_right; lra).
  assert (L4 : level (/ 10) = -10).
  { unfold level. destruct Req_EM_T; [lra|]. rewrite Rabs_pos_eq by lra. rewrite ln_Rinv by lra. replace (10 * (- ln 10 / ln 10)) with (-10) by (field; lra). rewrite Rmax_right; lra. }
  assert (CS : forall s s' i j x, In (s, s') [(prep_r, r'); (prep_d, d')] -> value_at s i j (x : R) -> j = 0%nat /\ (x = 1 \/ x = 0 \/ x = 10 \/ x = / 10)).
  { intros s s' i j x [X|[X|[]]] (A & B & C); inversion X; subst s s'; cbn [prep_r prep_d sp_data mrows mcols] in A, B;
    assert (j = 0%nat) by lia; subst j; split; auto; destruct i as [|[|i]]; try lia; unfold mget in C; cbn in C; subst x; auto. }
  destruct (Pk 0%nat) as (s & s' & i & x & I & V & Q); [cbn; lia|]. destruct (CS _ _ _ _ _ I V) as (_ & XX).
  pose proof (Pm _ _ _ _ _ I2 V3) as P3. rewrite L3 in P3.
  assert (PK : peak 0%nat = 10). { destruct XX as [-> |[-> |[-> | ->]]]; rewrite ?L1, ?L2, ?L3, ?L4 in Q; lra. }
  pose proof (Lm _ _ _ _ _ I1 V2) as W2. cbv beta in W2. rewrite PK, L2 in W2. rewrite Rmax_left in W2 by lra.
  assert (LO : low = -35).
  { destruct Low as (t & t' & k & j & y & J & W & QQ). destruct (CS _ _ _ _ _ J W) as (-> & YY). rewrite PK in QQ.
    pose proof (Rmax_l (10 - 45) (level y)). lra. }
  pose proof (Val _ _ _ _ _ I1 V1) as A1. pose proof (Val _ _ _ _ _ I1 V2) as A2. pose proof (Val _ _ _ _ _ I2 V3) as A3. pose proof (Val _ _ _ _ _ I2 V4) as A4.
  cbv beta in *. rewrite PK, LO in *. rewrite L1, Rmax_right in A1 by lra. rewrite L2, Rmax_left in A2 by lra. rewrite L3, Rmax_right in A3 by lra. rewrite L4, Rmax_right in A4 by lra.
  split; [|split; [|split]].
  - replace 35 with (0 - -35) by ring. exact A1.
  - replace 0 with (10 - 45 - -35) by ring. exact A2.
  - replace 45 with (10 - -35) by ring. exact A3.
  - replace 25 with (-10 - -35) by ring. exact A4.
Qed.
Definition lm_step : Libm := {|
  lm_exp := fun _ => f64_ofZ 1; lm_ln := fun _ => f64_ofZ 1;
  lm_log10 := fun x => if Bltb x (f64_ofZ 1) then f64_ofZ (-6) else if Bltb x (f64_ofZ 10) then f64_ofZ 0 else f64_ofZ 1; lm_log2 := fun _ => f64_ofZ 6;
  lm_sin := fun x => x; lm_cos := fun x => x; lm_sinh := fun x => x; lm_cosh := fun x => x;
  lm_powf := fun x _ => x; lm_hypot := fun x _ => x; lm_atan2 := fun x _ => x; lm_fft := fun _ l => l |}.
Definition stp_r : Spectrogram (F64 lm_step) := {| sp_data := @Build_mat (F64 lm_step) 2 1 [[f64_ofZ 1]; [f64_ofZ 0]]; center_freq_bands := [] |}.
Definition stp_d : Spectrogram (F64 lm_step) := {| sp_data := @Build_mat (F64 lm_step) 2 1 [[f64_ofZ (-10)]; [f64_ofZ 1]]; center_freq_bands := [] |}.
Lemma stp_small : log10_finite lm_step /\
  (forall s i j (x : f64), In s [stp_r; stp_d] -> value_at s i j x -> is_finite x = true) /\
  match prepare_spectrograms_for_comparison stp_r stp_d with
  | Ok (r', d') => map (map (f64_cast 0 100)) (mdata (sp_data r')) = [[35]; [0]]%Z /\
                   map (map (f64_cast 0 100)) (mdata (sp_data d')) = [[45]; [35]]%Z
  | _ => False
  end.
Proof.
  split; [|split].
  - intros x _ _. cbn [lm_log10 lm_step]. destruct (Bltb x (f64_ofZ 1)); [|destruct (Bltb x (f64_ofZ 10))];
    (split; [apply ofZ_fin; lia|rewrite ofZ_B2R by lia; apply Rabs_le; lra]).
  - intros s i j x [<-|[<-|[]]] (A & B & C); cbn [stp_r stp_d sp_data mrows mcols] in A, B;
    assert (j = 0%nat) by lia; subst j; destruct i as [|[|i]]; try lia; unfold mget in C; cbn [stp_r stp_d sp_data mcols mdata nth Nat.mul Nat.add] in C; rewrite <- C; apply ofZ_fin; lia.
  - vm_compute. split; reflexivity.
Qed.
