(** Proofs about the score: range, extremes, monotonicity, value for perfect similarity. *)
From Coq Require Import Reals Lra Psatz.
From Flocq Require Import Core IEEE754.BinarySingleNaN.
From Verif Require Import Base Num Mat M_Audio M_Align M_Spectro M_Patch M_Nsim M_Selector M_Visqol.
From Verif Require Import F64 RNum P_Base P_Mat P_Manager P_F64.
Open Scope R_scope.

(** ** run *)
Lemma run_ok {N} pf nb files (m m' : Manager N) a b r :
  run pf nb files m a b = (m', Ok r) ->
  exists rs ds al lag f',
    load_as_mono (files a) = Ok rs /\ load_as_mono (files b) = Ok ds /\
    sample_rate rs = sample_rate ds /\
    globally_align pf rs ds = Ok (Some (al, lag)) /\
    calculate_similarity pf nb rs al (mg_filterbank m)
      (new_window (sample_rate rs) OVERLAP WINDOW_DURATION)
      (mg_creator m) (mg_mapper m) (mg_search_window m) = (f', Ok r).
Proof.
  unfold run. destruct (load_as_mono (files a)) as [rs| |]; try discriminate.
  destruct (load_as_mono (files b)) as [ds| |]; try discriminate.
  unfold validate_input_audio. destruct (Z.eqb_spec (sample_rate rs) (sample_rate ds)); simpl; try discriminate.
  unfold compute_results. destruct (globally_align pf rs ds) as [[[al lag]|]| |] eqn:E; try discriminate.
  destruct (calculate_similarity _ _ _ _ _ _ _ _ _) as [f' x] eqn:E2.
  intros [= _ ->]. exists rs, ds, al, lag, f'. auto.
Qed.

Lemma run_score {N} pf nb files (m m' : Manager N) a b r :
  run pf nb files m a b = (m', Ok r) ->
  exists q, predict_quality (mg_mapper m) (fvnsim r) = Ok q /\
    moslqo r = (if nltb N (vnsim r) (nlit N 15 2) then nofZ N 1 else q).
Proof.
  intros H; apply run_ok in H. destruct H as (rs & ds & al & lag & f' & _ & _ & _ & _ & H).
  apply calculate_ok in H. destruct H as (_ & _ & _ & _ & _ & _ & _ & H & _).
  exact H.
Qed.

(** ** clamp *)
Section Clamp.
Variable lm : Libm.
Notation N := (F64 lm).

Lemma clamp_nan (x : f64) : is_nan x = true -> nclamp (N:=N) x (f64_ofZ 1) (f64_ofZ 5) = x.
Proof. destruct x; try discriminate. reflexivity. Qed.
Definition fclamp (x : f64) : f64 :=
  let x1 : f64 := if Bltb x (f64_ofZ 1) then f64_ofZ 1 else x in
  if Bltb (f64_ofZ 5) x1 then f64_ofZ 5 else x1.
Lemma clamp_ext (x : f64) : is_nan x = false ->
  is_finite (nclamp (N:=N) x (f64_ofZ 1) (f64_ofZ 5)) = true /\
  B2R (nclamp (N:=N) x (f64_ofZ 1) (f64_ofZ 5)) = Rmin 5 (Rmax 1 (ext x)).
Proof.
  intros Nx. change (nclamp (N:=N) x (f64_ofZ 1) (f64_ofZ 5)) with (fclamp x). unfold fclamp. cbv zeta.
  assert (E1 : ext (f64_ofZ 1) = 1) by (apply ofZ_ext; lia).
  assert (E5 : ext (f64_ofZ 5) = 5) by (apply ofZ_ext; lia).
  assert (N1 : is_nan (f64_ofZ 1) = false) by (apply ofZ_nan; lia).
  assert (N5 : is_nan (f64_ofZ 5) = false) by (apply ofZ_nan; lia).
  assert (F5 : is_finite (f64_ofZ 5) = true) by (apply ofZ_fin; lia).
  set (x1 := if Bltb x (f64_ofZ 1) then f64_ofZ 1 else x).
  assert (X1 : is_nan x1 = false /\ ext x1 = Rmax 1 (ext x)).
  { unfold x1. destruct (Bltb x (f64_ofZ 1)) eqn:L.
    - apply Bltb_true in L. rewrite E1 in L |- *. rewrite Rmax_left; [auto|lra].
    - apply Bltb_false in L; auto. rewrite E1 in L. rewrite Rmax_right; auto. }
  destruct X1 as [Nx1 Ex1]. destruct (Bltb (f64_ofZ 5) x1) eqn:L.
  - apply Bltb_true in L. rewrite E5, Ex1 in L. split; auto.
    rewrite <- (ext_finite (f64_ofZ 5)) by auto. rewrite E5, Rmin_left; lra.
  - apply Bltb_false in L; auto. rewrite E5, Ex1 in L.
    assert (F : is_finite x1 = true).
    { apply ext_inner_finite; auto. rewrite Ex1. pose proof (Rmax_l 1 (ext x)).
      assert (bpow radix2 3 <= big) by (apply bpow_big; lia). simpl in H0. lra. }
    split; auto. rewrite <- (ext_finite x1) by auto. rewrite Ex1, Rmin_right; lra.
Qed.
Lemma clamp_range (x : f64) : is_nan x = false ->
  is_finite (nclamp (N:=N) x (f64_ofZ 1) (f64_ofZ 5)) = true /\
  1 <= B2R (nclamp (N:=N) x (f64_ofZ 1) (f64_ofZ 5)) <= 5.
Proof.
  intros H; destruct (clamp_ext x H) as [F E]. split; auto. rewrite E.
  split; [apply Rmin_glb; [lra|apply Rmax_l]|apply Rmin_l].
Qed.

(** The quality before clamping. *)
Definition raw_speech (scale : bool) (v : list f64) : f64 :=
  Bmult mode_NE
    (Bplus mode_NE (f64_lit 11559455 7)
       (lm_exp lm (Bmult mode_NE (f64_lit 46851153 7)
          (Bminus mode_NE (Bdiv mode_NE (seq_sum (N:=N) v) (f64_ofZ (zlen v))) (f64_lit 7655232 7)))))
    (if scale then f64_lit 12031409 7 else f64_ofZ 1).

Lemma predict_clamp (mp : Mapper N) v q : predict_quality mp v = Ok q ->
  exists x, q = nclamp (N:=N) x (f64_ofZ 1) (f64_ofZ 5) /\
  match mp with
  | SpeechMapper s => x = raw_speech s v
  | SvrMapper m => svr_value m v = Some x
  end.
Proof.
  destruct mp; simpl.
  - intros [= <-]. eexists; split; reflexivity.
  - intros H. inv_do H. injection Hk as <-. unfold svr_predict in Hv.
    destruct (_ <? _)%Z; [discriminate|]. destruct (svr_value model v) eqn:E; [|discriminate].
    injection Hv as <-. eauto.
Qed.

Lemma mos_cases pf nb files (m m' : Manager N) a b r :
  run pf nb files m a b = (m', Ok r) ->
  (is_finite (moslqo r) = true /\ 1 <= B2R (moslqo r) <= 5) \/
  (is_nan (moslqo r) = true /\ Bltb (vnsim r) (f64_lit 15 2) = false /\
   match mg_mapper m with
   | SpeechMapper s => is_nan (raw_speech s (fvnsim r)) = true
   | SvrMapper model => exists y, svr_value model (fvnsim r) = Some y /\ is_nan y = true
   end).
Proof.
  intros H. apply run_score in H. destruct H as (q & Hq & ->). cbn [nltb nlit nofZ F64].
  destruct (Bltb (vnsim r) (f64_lit 15 2)).
  - left. change (nofZ N 1) with (f64_ofZ 1). rewrite ofZ_B2R by lia. rewrite ofZ_fin by lia. split; auto; lra.
  - apply predict_clamp in Hq. destruct Hq as (x & -> & Hx).
    destruct (is_nan x) eqn:E.
    + right. rewrite clamp_nan by auto. repeat split; auto.
      destruct (mg_mapper m); [subst; auto|eauto].
    + left. apply clamp_range; auto.
Qed.

(** ** Monotonicity in f64 *)
Lemma Bminus_mono (x y c : f64) : is_finite c = true -> Bleb x y = true ->
  Bleb (Bminus mode_NE x c) (Bminus mode_NE y c) = true.
Proof.
  intros Fc H. apply Bleb_true in H. destruct H as (Nx & Ny & H).
  assert (Hinf : forall z : f64, is_nan z = false -> is_finite z = false -> Bminus mode_NE z c = z).
  { intros z; destruct z as [| s | |]; try discriminate. destruct c; try discriminate; reflexivity. }
  destruct (is_finite x) eqn:Fx; destruct (is_finite y) eqn:Fy.
  - destruct (Bminus_ext x c Fx Fc) as (A1 & A2 & _). destruct (Bminus_ext y c Fy Fc) as (B1 & B2 & _).
    apply Bleb_true. repeat split; auto. rewrite A2, B2. apply clip_le, rnd_le.
    rewrite !ext_finite in H by auto. lra.
  - rewrite (Hinf y) by auto. destruct (Bminus_ext x c Fx Fc) as (A1 & A2 & _).
    apply Bleb_true. repeat split; auto.
    destruct y as [| [] | |]; try discriminate.
    + simpl in H. rewrite ext_finite in H by auto. pose proof (finite_lt_big x). lra.
    + simpl ext at 2. apply ext_bound.
  - rewrite (Hinf x) by auto. destruct (Bminus_ext y c Fy Fc) as (A1 & A2 & _).
    apply Bleb_true. repeat split; auto.
    destruct x as [| [] | |]; try discriminate.
    + simpl ext at 1. apply ext_bound.
    + simpl in H. rewrite (ext_finite y) in H by auto. pose proof (finite_lt_big y). lra.
  - rewrite (Hinf x), (Hinf y) by auto. apply Bleb_true; auto.
Qed.
Lemma Bplus_mono (x y c : f64) : is_finite c = true -> Bleb x y = true ->
  Bleb (Bplus mode_NE c x) (Bplus mode_NE c y) = true.
Proof.
  intros Fc H. apply Bleb_true in H. destruct H as (Nx & Ny & H).
  assert (Hinf : forall z : f64, is_nan z = false -> is_finite z = false -> Bplus mode_NE c z = z).
  { intros z; destruct z as [| s | |]; try discriminate. destruct c; try discriminate; reflexivity. }
  destruct (is_finite x) eqn:Fx; destruct (is_finite y) eqn:Fy.
  - destruct (Bplus_ext c x Fc Fx) as (A1 & A2 & _). destruct (Bplus_ext c y Fc Fy) as (B1 & B2 & _).
    apply Bleb_true. repeat split; auto. rewrite A2, B2. apply clip_le, rnd_le.
    rewrite !ext_finite in H by auto. lra.
  - rewrite (Hinf y) by auto. destruct (Bplus_ext c x Fc Fx) as (A1 & A2 & _).
    apply Bleb_true. repeat split; auto.
    destruct y as [| [] | |]; try discriminate.
    + simpl in H. rewrite ext_finite in H by auto. pose proof (finite_lt_big x). lra.
    + simpl ext at 2. apply ext_bound.
  - rewrite (Hinf x) by auto. destruct (Bplus_ext c y Fc Fy) as (A1 & A2 & _).
    apply Bleb_true. repeat split; auto.
    destruct x as [| [] | |]; try discriminate.
    + simpl ext at 1. apply ext_bound.
    + simpl in H. rewrite (ext_finite y) in H by auto. pose proof (finite_lt_big y). lra.
  - rewrite (Hinf x), (Hinf y) by auto. apply Bleb_true; auto.
Qed.
Lemma Bmult_mono (x y c : f64) : is_finite c = true -> 0 < B2R c -> Bleb x y = true ->
  Bleb (Bmult mode_NE x c) (Bmult mode_NE y c) = true.
Proof.
  intros Fc Pc H. apply Bleb_true in H. destruct H as (Nx & Ny & H).
  assert (Hinf : forall z : f64, is_nan z = false -> is_finite z = false -> Bmult mode_NE z c = z).
  { intros z; destruct z as [| s | |]; try discriminate. intros _ _.
    destruct c as [| | |sc mc ec Hc]; try discriminate; [simpl in Pc; lra|].
    destruct sc; [exfalso; simpl in Pc; revert Pc; apply Rle_not_lt, F2R_le_0; simpl; lia|].
    simpl. rewrite xorb_false_r; auto. }
  destruct (is_finite x) eqn:Fx; destruct (is_finite y) eqn:Fy.
  - destruct (Bmult_ext x c Fx Fc) as (A1 & A2 & _). destruct (Bmult_ext y c Fy Fc) as (B1 & B2 & _).
    apply Bleb_true. repeat split; auto. rewrite A2, B2. apply clip_le, rnd_le.
    rewrite !ext_finite in H by auto. nra.
  - rewrite (Hinf y) by auto. destruct (Bmult_ext x c Fx Fc) as (A1 & A2 & _).
    apply Bleb_true. repeat split; auto.
    destruct y as [| [] | |]; try discriminate.
    + simpl in H. rewrite ext_finite in H by auto. pose proof (finite_lt_big x). lra.
    + simpl ext at 2. apply ext_bound.
  - rewrite (Hinf x) by auto. destruct (Bmult_ext y c Fy Fc) as (A1 & A2 & _).
    apply Bleb_true. repeat split; auto.
    destruct x as [| [] | |]; try discriminate.
    + simpl ext at 1. apply ext_bound.
    + simpl in H. rewrite (ext_finite y) in H by auto. pose proof (finite_lt_big y). lra.
  - rewrite (Hinf x), (Hinf y) by auto. apply Bleb_true; auto.
Qed.
Lemma Bmult_mono_l (x y c : f64) : is_finite c = true -> 0 < B2R c -> Bleb x y = true ->
  Bleb (Bmult mode_NE c x) (Bmult mode_NE c y) = true.
Proof.
  intros Fc Pc H. apply Bleb_true in H. destruct H as (Nx & Ny & H).
  assert (Hinf : forall z : f64, is_nan z = false -> is_finite z = false -> Bmult mode_NE c z = z).
  { intros z; destruct z as [| s | |]; try discriminate. intros _ _.
    destruct c as [| | |sc mc ec Hc]; try discriminate; [simpl in Pc; lra|].
    destruct sc; [exfalso; simpl in Pc; revert Pc; apply Rle_not_lt, F2R_le_0; simpl; lia|].
    destruct s; reflexivity. }
  destruct (is_finite x) eqn:Fx; destruct (is_finite y) eqn:Fy.
  - destruct (Bmult_ext c x Fc Fx) as (A1 & A2 & _). destruct (Bmult_ext c y Fc Fy) as (B1 & B2 & _).
    apply Bleb_true. repeat split; auto. rewrite A2, B2. apply clip_le, rnd_le.
    rewrite !ext_finite in H by auto. nra.
  - rewrite (Hinf y) by auto. destruct (Bmult_ext c x Fc Fx) as (A1 & A2 & _).
    apply Bleb_true. repeat split; auto.
    destruct y as [| [] | |]; try discriminate.
    + simpl in H. rewrite ext_finite in H by auto. pose proof (finite_lt_big x). lra.
    + simpl ext at 2. apply ext_bound.
  - rewrite (Hinf x) by auto. destruct (Bmult_ext c y Fc Fy) as (A1 & A2 & _).
    apply Bleb_true. repeat split; auto.
    destruct x as [| [] | |]; try discriminate.
    + simpl ext at 1. apply ext_bound.
    + simpl in H. rewrite (ext_finite y) in H by auto. pose proof (finite_lt_big y). lra.
  - rewrite (Hinf x), (Hinf y) by auto. apply Bleb_true; auto.
Qed.

Lemma rnd_pos x : bpow radix2 (-1074) <= x -> 0 < rnd x.
Proof.
  intros H. apply Rlt_le_trans with (bpow radix2 (-1074)); [apply bpow_gt_0|].
  apply round_ge_generic; auto with typeclass_instances.
  apply generic_format_bpow. unfold SpecFloat.fexp, SpecFloat.emin; lia.
Qed.
Lemma tiny_le : forall x, / 1000 <= x -> bpow radix2 (-1074) <= x.
Proof.
  intros x H. apply Rle_trans with (bpow radix2 (-10)); [apply bpow_le; lia|].
  apply Rle_trans with (/ 1000); auto. simpl. apply Rinv_le; lra.
Qed.
Lemma litB_pos : is_finite (f64_lit 46851153 7) = true /\ 0 < B2R (f64_lit 46851153 7).
Proof.
  destruct (lit_fin 46851153 7) as [F E]; [lia|lia|]. split; auto. rewrite E.
  apply rnd_pos, tiny_le. change (10 ^ 7)%Z with 10000000%Z. lra.
Qed.
Lemma litS_pos : is_finite (f64_lit 12031409 7) = true /\ 0 < B2R (f64_lit 12031409 7).
Proof.
  destruct (lit_fin 12031409 7) as [F E]; [lia|lia|]. split; auto. rewrite E.
  apply rnd_pos, tiny_le. change (10 ^ 7)%Z with 10000000%Z. lra.
Qed.

Definition f64_mean (v : list f64) : f64 := Bdiv mode_NE (seq_sum (N:=N) v) (f64_ofZ (zlen v)).

Lemma speech_mono scale v1 v2 :
  (forall x y, Bleb x y = true -> Bleb (lm_exp lm x) (lm_exp lm y) = true) ->
  Bleb (f64_mean v1) (f64_mean v2) = true ->
  Bleb (speech_predict_quality (N:=N) scale v1) (speech_predict_quality (N:=N) scale v2) = true.
Proof.
  intros Hexp H.
  assert (R : Bleb (raw_speech scale v1) (raw_speech scale v2) = true).
  { unfold raw_speech. apply Bmult_mono.
    - destruct scale; [apply litS_pos|apply ofZ_fin; lia].
    - destruct scale; [apply litS_pos|rewrite ofZ_B2R by lia; lra].
    - apply Bplus_mono; [apply lit_fin; lia|]. apply Hexp.
      apply Bmult_mono_l; [apply litB_pos|apply litB_pos|].
      apply Bminus_mono; [apply lit_fin; lia|]. exact H. }
  change (speech_predict_quality (N:=N) scale v1) with
    (nclamp (N:=N) (raw_speech scale v1) (f64_ofZ 1) (f64_ofZ 5)).
  change (speech_predict_quality (N:=N) scale v2) with
    (nclamp (N:=N) (raw_speech scale v2) (f64_ofZ 1) (f64_ofZ 5)).
  apply Bleb_true in R. destruct R as (N1 & N2 & R).
  destruct (clamp_ext _ N1) as [F1 E1]. destruct (clamp_ext _ N2) as [F2 E2].
  apply Bleb_true. rewrite !ext_finite by auto. rewrite E1, E2.
  repeat split; try apply is_nan_finite; auto.
  apply Rle_min_compat_l, Rle_max_compat_l; auto.
Qed.
End Clamp.

(** ** Exact arithmetic *)
Lemma Rltb_true x y : Rltb x y = true <-> x < y.
Proof. unfold Rltb; destruct (Rlt_dec x y); split; auto; try discriminate; contradiction. Qed.
Lemma Rltb_false x y : Rltb x y = false <-> y <= x.
Proof. unfold Rltb; destruct (Rlt_dec x y); split; auto; try discriminate; lra. Qed.
Lemma Rleb_true x y : Rleb x y = true <-> x <= y.
Proof. unfold Rleb; destruct (Rle_dec x y); split; auto; try discriminate; contradiction. Qed.
Lemma Rleb_false x y : Rleb x y = false <-> y < x.
Proof. unfold Rleb; destruct (Rle_dec x y); split; auto; try discriminate; lra. Qed.
Lemma Reqb_true x y : Reqb x y = true <-> x = y.
Proof. unfold Reqb; destruct (Req_EM_T x y); split; auto; try discriminate; contradiction. Qed.
Lemma Reqb_false x y : Reqb x y = false <-> x <> y.
Proof. unfold Reqb; destruct (Req_EM_T x y); split; auto; try discriminate; contradiction. Qed.
Lemma Reqb_refl x : Reqb x x = true. Proof. apply Reqb_true; auto. Qed.

Lemma R_clamp (x lo hi : R) : lo <= hi -> nclamp (N:=RN) x lo hi = Rmin hi (Rmax lo x).
Proof.
  intros H. unfold nclamp. cbn [nltb RN].
  destruct (Rltb x lo) eqn:E.
  - apply Rltb_true in E. rewrite Rmax_left by lra.
    destruct (Rltb hi lo) eqn:E2; [apply Rltb_true in E2; lra|]. rewrite Rmin_right; lra.
  - apply Rltb_false in E. rewrite Rmax_right by lra.
    destruct (Rltb hi x) eqn:E2; [apply Rltb_true in E2; rewrite Rmin_left; lra|].
    apply Rltb_false in E2. rewrite Rmin_right; lra.
Qed.

Definition r_raw (scale : bool) (mean : R) : R :=
  (11559455 / 10000000 + exp (46851153 / 10000000 * (mean - 7655232 / 10000000)))
  * (if scale then 12031409 / 10000000 else 1).

Lemma fold_left_Rsum (l : list R) a : fold_left Rplus l a = a + Rsum l.
Proof.
  revert a; induction l as [|x l IH]; intros; unfold Rsum in *; simpl; [lra|]. rewrite IH. lra.
Qed.
Lemma R_seq_sum (l : list R) : seq_sum (N:=RN) l = Rsum l.
Proof. unfold seq_sum. cbn [nadd nofZ RN]. rewrite fold_left_Rsum. apply Rplus_0_l. Qed.

Lemma R_speech scale v : speech_predict_quality (N:=RN) scale v =
  Rmin 5 (Rmax 1 (r_raw scale (Rsum v / IZR (zlen v)))).
Proof.
  unfold speech_predict_quality. cbn [nofZ RN ndiv nmul num].
  rewrite R_clamp by lra. rewrite R_seq_sum.
  unfold exponential_from_fit, r_raw, FIT_PARAMETER_A, FIT_PARAMETER_B, FIT_PARAMETER_X0, FIT_SCALE.
  destruct scale; reflexivity.
Qed.

Lemma r_raw_strict scale a b : a < b -> r_raw scale a < r_raw scale b.
Proof.
  intros H. unfold r_raw. apply Rmult_lt_compat_r; [destruct scale; lra|].
  apply Rplus_lt_compat_l, exp_increasing. lra.
Qed.

Lemma R_speech_strict scale v1 v2 :
  Rsum v1 / IZR (zlen v1) < Rsum v2 / IZR (zlen v2) ->
  speech_predict_quality (N:=RN) scale v1 <= speech_predict_quality (N:=RN) scale v2 /\
  (1 < speech_predict_quality (N:=RN) scale v1 -> speech_predict_quality (N:=RN) scale v2 < 5 ->
   speech_predict_quality (N:=RN) scale v1 < speech_predict_quality (N:=RN) scale v2).
Proof.
  intros H. apply (r_raw_strict scale) in H. rewrite !R_speech.
  set (x := r_raw scale (Rsum v1 / _)) in *. set (y := r_raw scale (Rsum v2 / _)) in *.
  split.
  - apply Rle_min_compat_l, Rle_max_compat_l; lra.
  - unfold Rmin, Rmax. repeat destruct (Rle_dec _ _); intros; lra.
Qed.


(** ** The statements used in T_Score *)
From Verif Require Import Spec P_Exp.

Lemma clamp_spec lm (x : f64) : nclamp (N:=F64 lm) x (f64_ofZ 1) (f64_ofZ 5) = clamp_1_5 x.
Proof.
  change (nclamp (N:=F64 lm) x (f64_ofZ 1) (f64_ofZ 5)) with (fclamp x).
  unfold fclamp, clamp_1_5. cbv zeta.
  destruct (is_nan x) eqn:E; [destruct x; try discriminate; reflexivity|].
  destruct (Bltb x (f64_ofZ 1)) eqn:L; auto.
Qed.

Lemma new_manager_mapper lm nb v w (m : Manager (F64 lm)) : new_manager nb v w = Ok m ->
  match v with
  | Wideband u => mg_mapper m = SpeechMapper (negb u)
  | Fullband (Some s) => mg_mapper m = SvrMapper s
  | Fullband None => False
  end.
Proof.
  unfold new_manager. destruct v as [u|[s|]]; simpl; intros H; try discriminate; injection H as <-; auto.
Qed.

Lemma predict_spec lm nb v w (m : Manager (F64 lm)) sims q : new_manager nb v w = Ok m ->
  predict_quality (mg_mapper m) sims = Ok q ->
  exists x, mapped_raw lm v sims x /\ q = clamp_1_5 x.
Proof.
  intros H Hq. apply new_manager_mapper in H. apply predict_clamp in Hq.
  destruct Hq as (x & -> & Hx). exists x. rewrite clamp_spec.
  destruct v as [u|[s|]]; [| |contradiction]; rewrite H in Hx; auto.
Qed.

Lemma C01_range pf lm nb files (m m' : Manager (F64 lm)) a b r :
  run pf nb files m a b = (m', Ok r) ->
  is_nan (moslqo r : f64) = true \/ f64_in 1 5 (moslqo r).
Proof. intros H. apply mos_cases in H. unfold f64_in. tauto. Qed.

Lemma reach_mapper {N} pf nb calls (m : Manager N) : mg_mapper (after_calls pf nb m calls) = mg_mapper m.
Proof.
  revert m; induction calls as [|c l IH]; intros m; cbn [after_calls fold_left]; auto.
  fold (after_calls pf nb (fst (run pf nb (fst (fst c)) m (snd (fst c)) (snd c))) l).
  rewrite IH. destruct (run_same pf nb (fst (fst c)) m m (snd (fst c)) (snd c)) as [_ (_ & _ & E & _)]; auto.
  repeat split; auto.
Qed.

Lemma C02_all pf lm nb v w (m : Manager (F64 lm)) calls files a b m' r :
  new_manager nb v w = Ok m ->
  run pf nb files (after_calls pf nb m calls) a b = (m', Ok r) ->
  (Bltb (vnsim r) (f64_lit 15 2) = true -> moslqo r = f64_ofZ 1) /\
  (Bltb (vnsim r) (f64_lit 15 2) = false ->
     exists x, mapped_raw lm v (fvnsim r) x /\ moslqo r = clamp_1_5 x).
Proof.
  intros Hm H. apply run_score in H. destruct H as (q & Hq & E). rewrite reach_mapper in Hq.
  cbn [nltb nlit nofZ F64] in E. split; intros L; rewrite L in E; auto.
  destruct (predict_spec _ _ _ _ _ _ _ Hm Hq) as (x & Hx & ->). eauto.
Qed.

Lemma C01_nan pf lm nb v w (m : Manager (F64 lm)) calls files a b m' r :
  new_manager nb v w = Ok m ->
  run pf nb files (after_calls pf nb m calls) a b = (m', Ok r) ->
  is_nan (moslqo r : f64) = true ->
  Bltb (vnsim r) (f64_lit 15 2) = false /\
  exists x, mapped_raw lm v (fvnsim r) x /\ is_nan x = true.
Proof.
  intros Hm H Hn. destruct (C02_all _ _ _ _ _ _ _ _ _ _ _ _ Hm H) as [A B].
  destruct (Bltb (vnsim r) (f64_lit 15 2)) eqn:L.
  - rewrite A in Hn by auto. discriminate.
  - split; auto. destruct (B eq_refl) as (x & Hx & E). exists x; split; auto.
    rewrite E in Hn. unfold clamp_1_5 in Hn. destruct (is_nan x) eqn:Ex; auto.
    destruct (Bltb x (f64_ofZ 1)); [vm_compute in Hn; discriminate|].
    destruct (Bltb (f64_ofZ 5) x); [vm_compute in Hn; discriminate|]. congruence.
Qed.

Lemma C03_mono lm scaled v1 v2 q1 q2 : monotone_exp lm ->
  predict_quality (N:=F64 lm) (SpeechMapper scaled) v1 = Ok q1 ->
  predict_quality (N:=F64 lm) (SpeechMapper scaled) v2 = Ok q2 ->
  Bleb (mean_f64 v1) (mean_f64 v2) = true -> Bleb q1 q2 = true.
Proof.
  intros He [= <-] [= <-] H. apply speech_mono; auto.
Qed.

Lemma curve_raw s x : speech_curve s x = r_raw s x.
Proof. destruct s; reflexivity. Qed.

Lemma C03_exact scaled v1 v2 q1 q2 :
  predict_quality (N:=RN) (SpeechMapper scaled) v1 = Ok q1 ->
  predict_quality (N:=RN) (SpeechMapper scaled) v2 = Ok q2 ->
  mean_R v1 < mean_R v2 -> q1 <= q2 /\ (1 < q1 -> q2 < 5 -> q1 < q2).
Proof. intros [= <-] [= <-] H. apply R_speech_strict; auto. Qed.
Lemma C03_exact_curve scaled v q :
  predict_quality (N:=RN) (SpeechMapper scaled) v = Ok q ->
  q = Rmin 5 (Rmax 1 (speech_curve scaled (mean_R v))).
Proof. intros [= <-]. rewrite curve_raw. apply R_speech. Qed.

Lemma r_raw_1 s : r_raw s 1 = (11559455 / 10000000 + exp tpt) * (if s then 12031409 / 10000000 else 1).
Proof. reflexivity. Qed.
Lemma C04_top scaled v q : mean_R v = 1 ->
  predict_quality (N:=RN) (SpeechMapper scaled) v = Ok q ->
  if scaled then 4.999 < q < 5 else 4.1 < q < 4.2.
Proof.
  intros H E. apply C03_exact_curve in E. rewrite H, curve_raw, r_raw_1 in E.
  pose proof exp_tpt as T. destruct scaled;
  (rewrite Rmax_right, Rmin_right in E; [subst; lra|try rewrite Rmax_right; lra|lra]).
Qed.
Lemma C04_refuted : exists v q, mean_R v = 1 /\
  predict_quality (N:=RN) (SpeechMapper true) v = Ok q /\ q <> 5.
Proof.
  exists [1], (speech_predict_quality (N:=RN) true [1]).
  assert (H : mean_R [1] = 1) by (unfold mean_R, Rsum, zlen; simpl; lra).
  split; auto. split; [reflexivity|].
  pose proof (C04_top true [1] _ H eq_refl) as T. simpl in T. lra.
Qed.
