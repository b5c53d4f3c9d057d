(** C70: a silent reference: both spectrograms are constant and every patch matches. *)
From Coq Require Import Reals Lra Lia Sorted.
From Flocq Require Import Core IEEE754.BinarySingleNaN.
From Verif Require Import Base Num Mat F64 M_Audio M_Align M_Spectro M_Patch M_Nsim M_Selector M_Visqol.
From Verif Require Import P_Base P_Mat P_F64 P_Manager P_Run P_Audio P_Audio2 P_Win P_Spectro P_Times P_Segment P_Compare P_Level P_Load P_Agg P_Score Spec Spec2 Spec4 Spec10 Spec11.
From Verif Require Import P_Conv P_Nsim P_NsimF P_Prep P_Prep2 P_Dp P_Dp2 P_Patch P_Vad P_Same P_Same2 P_Silent.
Open Scope Z_scope.

(** ** Zeros through the arithmetic *)
Lemma isz_multl x y : isz x -> is_finite y = true -> isz (Bmult mode_NE x y).
Proof. intros [s ->] H. destruct y; try discriminate; eexists; reflexivity. Qed.
Lemma isz_multr x y : is_finite x = true -> isz y -> isz (Bmult mode_NE x y).
Proof. intros H [s ->]. destruct x; try discriminate; eexists; reflexivity. Qed.
Lemma isz_minus x y : isz x -> isz y -> isz (Bminus mode_NE x y).
Proof. intros [s ->] [t ->]. destruct s, t; eexists; reflexivity. Qed.
Lemma isz_sqrt x : isz x -> isz (Bsqrt mode_NE x).
Proof. intros [s ->]. eexists; reflexivity. Qed.
Lemma isz_fin x : isz x -> is_finite x = true.
Proof. intros [s ->]. reflexivity. Qed.
Lemma isz_iff x : isz x <-> is_finite x = true /\ B2R x = 0%R.
Proof.
  split; [intros [s ->]; split; reflexivity|]. intros [F E]. destruct x as [s| | |s m e b]; try discriminate; [exists s; reflexivity|].
  exfalso. cbn in E. apply eq_0_F2R in E. destruct s; discriminate.
Qed.
Lemma plus_isz_l x y : isz x -> is_finite y = true -> (0 < B2R y)%R -> Bplus mode_NE x y = y.
Proof. intros [s ->] F P. destruct y as [t| | |t m e b]; try discriminate; [cbn in P; lra|]. destruct s; reflexivity. Qed.
Lemma div_self x : is_finite x = true -> (0 < B2R x)%R -> Bdiv mode_NE x x = f64_ofZ 1.
Proof.
  intros F P. assert (Q : (B2R x / B2R x = 1)%R) by (field; lra).
  destruct (Bdiv_fin x x F F) as [A B]; [lra| |].
  - rewrite Q, (rnd_IZR 1) by lia. apply (bpow_1000_big _ 0); [lia|]. rewrite Rabs_pos_eq by lra. cbn; lra.
  - rewrite Q, (rnd_IZR 1) in B by lia. apply B2R_inj.
    + destruct (Bdiv mode_NE x x); try discriminate; auto. cbn in B. lra.
    + assert (E : (B2R (f64_ofZ 1) = 1)%R) by (apply ofZ_B2R; lia). assert (G : is_finite (f64_ofZ 1) = true) by (apply ofZ_fin; lia).
      destruct (f64_ofZ 1); try discriminate; auto. cbn in E. lra.
    + rewrite B. symmetry. apply (ofZ_B2R 1). lia.
Qed.

(** Sums of ones. *)
Definition Pn (j : Z) (x : f64) : Prop := is_finite x = true /\ B2R x = IZR j.
Lemma Pn_plus j k x y : 0 <= j -> 0 <= k -> j + k <= 2 ^ 53 -> Pn j x -> Pn k y -> Pn (j + k) (Bplus mode_NE x y).
Proof.
  intros Hj Hk H [Fx Hx] [Fy Hy]. destruct (Bplus_fin x y Fx Fy) as [F E].
  - rewrite Hx, Hy, <- plus_IZR, rnd_IZR by lia. apply (bpow_1000_big _ 53); [lia|].
    rewrite Rabs_pos_eq by (apply IZR_le; lia). change (bpow radix2 53) with (IZR (2 ^ 53)). apply IZR_le. lia.
  - split; auto. rewrite E, Hx, Hy, <- plus_IZR, rnd_IZR by lia. reflexivity.
Qed.
Lemma Pn_1 x : Pn 1 x <-> x = f64_ofZ 1.
Proof.
  split.
  - intros [F B]. apply B2R_inj.
    + destruct x; try discriminate; auto. cbn in B. lra.
    + assert (E : (B2R (f64_ofZ 1) = 1)%R) by (apply ofZ_B2R; lia). assert (G : is_finite (f64_ofZ 1) = true) by (apply ofZ_fin; lia).
      destruct (f64_ofZ 1); try discriminate; auto. cbn in E. lra.
    + rewrite B. symmetry. apply (ofZ_B2R 1). lia.
  - intros ->. split; [apply ofZ_fin; lia|apply ofZ_B2R; lia].
Qed.
Lemma Pn_0 : Pn 0 (f64_ofZ 0).
Proof. split; [apply ofZ_fin; lia|apply ofZ_B2R; lia]. Qed.
Lemma Pn_div n x : 1 <= n <= 2 ^ 53 -> Pn n x -> Bdiv mode_NE x (f64_ofZ n) = f64_ofZ 1.
Proof.
  intros Hn [F B]. destruct (ofZ_exact n ltac:(lia)) as [Fn En].
  assert (N0 : (1 <= IZR n)%R) by (apply IZR_le; lia).
  assert (Q : (B2R x / B2R (f64_ofZ n) = 1)%R) by (rewrite B, En; field; lra).
  apply Pn_1. destruct (Bdiv_fin x (f64_ofZ n) F Fn) as [A C]; [rewrite En; lra| |].
  - rewrite Q, (rnd_IZR 1) by lia. apply (bpow_1000_big _ 0); [lia|]. rewrite Rabs_pos_eq by lra. cbn; lra.
  - split; auto. rewrite C, Q. apply (rnd_IZR 1). lia.
Qed.

Section Sil.
Context (lm : Libm).
Notation N := (F64 lm).

Lemma ones_fold (l : list f64) : Forall (fun x => x = f64_ofZ 1) l -> 1 <= zlen l <= 2 ^ 53 ->
  Bdiv mode_NE (seq_sum (N:=N) l) (f64_ofZ (zlen l)) = f64_ofZ 1.
Proof.
  intros H L. apply Pn_div; [lia|]. rewrite <- (Z.add_0_l (zlen l)).
  apply (fold_closed (N:=N) Pn (2 ^ 53) Pn_plus l 0 (f64_ofZ 0)); [lia|exact Pn_0| |exact (proj2 L)].
  eapply Forall_impl; [|exact H]. intros x Hx. apply Pn_1. exact Hx.
Qed.
Lemma ones_mean (l : list f64) m : Forall (fun x => x = f64_ofZ 1) l -> zlen l <= 2 ^ 53 -> nd_mean (N:=N) l = Some m -> m = f64_ofZ 1.
Proof.
  intros H L E. unfold nd_mean in E. destruct l as [|x t]; [discriminate|].
  match type of E with Some ?y = _ => assert (EE : y = m) by congruence end. rewrite <- EE. clear E EE.
  apply (Pn_div (zlen (x :: t))); [rewrite zlen_cons in *; pose proof (zlen_nonneg t); lia|].
  apply (nd_sum_closed (N:=N) Pn (2 ^ 53) Pn_plus Pn_0); [|exact L].
  eapply Forall_impl; [|exact H]. intros y Hy. apply Pn_1. exact Hy.
Qed.

(** ** The filter bank *)
Lemma filter_zero (n0 n1 n2 d0 d1 d2 : f64) : is_finite n0 = true -> is_finite n1 = true -> is_finite n2 = true -> is_finite d1 = true -> is_finite d2 = true ->
  forall (l : list f64) (c0 c1 : f64), Forall isz l -> isz c0 -> isz c1 ->
  Forall isz (fst (filter_signal (N:=N) (n0, n1, n2) (d0, d1, d2) l (c0, c1))).
Proof.
  intros F0 F1 F2 G1 G2. induction l as [|x t IH]; intros c0 c1 H Z0 Z1; cbn [filter_signal fst]; [constructor|].
  apply Forall_cons_iff in H as [Hx Ht].
  assert (Y : isz (Bplus mode_NE (Bmult mode_NE n0 x) c0)) by (apply isz_plus; auto; apply isz_multr; auto).
  match goal with |- context [filter_signal (n0, n1, n2) (d0, d1, d2) t (?a, ?b)] =>
    assert (IH' : Forall isz (fst (filter_signal (N:=N) (n0, n1, n2) (d0, d1, d2) t (a, b)))) end.
  { apply IH; auto.
    - apply isz_minus; [apply isz_plus; auto; apply isz_multr; auto|apply isz_multr; auto].
    - apply isz_minus; apply isz_multr; auto. }
  match goal with |- context [filter_signal ?n ?d t ?c] => destruct (filter_signal (N:=N) n d t c) as [ys cf] end. cbn [fst] in *. constructor; auto.
Qed.
Lemma zget_map {A} (f : A -> f64) (l : list A) i x : zget (map f l) i = Ok x -> exists a, nth_error l (Z.to_nat i) = Some a /\ x = f a.
Proof. intros H. apply zget_ok in H. destruct H as [_ H]. rewrite nth_error_map in H. destruct (nth_error l (Z.to_nat i)); [|discriminate]. injection H as <-. eauto. Qed.
Lemma coeff_row nb rate minf c band (x : f64) : (c < 10)%nat -> coeff (bank (N:=N) nb rate minf) c band = Ok x ->
  exists row : list f64, nth_error (rev (fst (make_filters (N:=N) nb rate minf (nofZ N (max_freq nb rate))))) (Z.to_nat band) = Some row /\ x = nth c row (f64_ofZ 0).
Proof.
  intros Hc H. unfold coeff in H. cbn [bank fb_coeffs] in H.
  assert (E : forall (f : nat -> list (num N)), nth c (map f (seq 0 10)) [] = f c) by (intros f; apply nth_map_seq; exact Hc).
  rewrite E in H. apply zget_map in H. exact H.
Qed.
Lemma cond_zero nb band (x : f64 * f64) : zget (repeat (f64_ofZ 0, f64_ofZ 0) nb) band = Ok x -> isz (fst x) /\ isz (snd x).
Proof. intros H. apply zget_ok in H. destruct H as [_ H]. apply nth_error_In, repeat_spec in H. subst x. split; apply isz_0. Qed.
Lemma band_zero nb rate (l y : list f64) b e : filters_finite lm nb rate -> Forall isz l ->
  apply_band (bank (N:=N) nb rate MINIMUM_FREQ) l b = Ok (y, e) -> Forall isz y.
Proof.
  intros FF HZ H. unfold apply_band in H.
  step H as a0 E0. step H as gain E9. step H as a11 E1. step H as a2 E5. step H as a12 E2. step H as a13 E3. step H as a14 E4.
  step H as b0 E6. step H as b1 E7. step H as b2 E8. step H as c1 C1. step H as c2 C2. step H as c3 C3. step H as c4 C4.
  destruct (coeff_row nb rate MINIMUM_FREQ 0 b a0 ltac:(lia) E0) as (row & R0 & V0).
  assert (IN : In row (fst (make_filters (N:=N) nb rate MINIMUM_FREQ (nofZ N (max_freq nb rate))))) by (apply in_rev; eapply nth_error_In; exact R0).
  destruct (FF row IN) as [FC FQ].
  assert (G : forall c (x : f64), (c < 10)%nat -> coeff (bank (N:=N) nb rate MINIMUM_FREQ) c b = Ok x -> x = nth c row (f64_ofZ 0)).
  { intros c x Hc Hx. destruct (coeff_row nb rate MINIMUM_FREQ c b x Hc Hx) as (row' & R' & V'). assert (row' = row) by congruence. subst row'. exact V'. }
  pose proof (G 1%nat _ ltac:(lia) E1) as V1. pose proof (G 9%nat _ ltac:(lia) E9) as V9. pose proof (G 2%nat _ ltac:(lia) E2) as V2.
  pose proof (G 3%nat _ ltac:(lia) E3) as V3. pose proof (G 4%nat _ ltac:(lia) E4) as V4. pose proof (G 5%nat _ ltac:(lia) E5) as V5.
  pose proof (G 7%nat _ ltac:(lia) E7) as V7. pose proof (G 8%nat _ ltac:(lia) E8) as V8. clear G.
  pose proof (FC 0%nat ltac:(lia)) as F0. pose proof (FC 1%nat ltac:(lia)) as F1. pose proof (FC 2%nat ltac:(lia)) as F2. pose proof (FC 3%nat ltac:(lia)) as F3.
  pose proof (FC 4%nat ltac:(lia)) as F4. pose proof (FC 5%nat ltac:(lia)) as F5. pose proof (FC 7%nat ltac:(lia)) as F7. pose proof (FC 8%nat ltac:(lia)) as F8.
  pose proof (FQ 0%nat ltac:(cbn; auto)) as Q0. pose proof (FQ 1%nat ltac:(cbn; auto)) as Q1. pose proof (FQ 5%nat ltac:(cbn; auto)) as Q5.
  rewrite <- V0 in F0, Q0. rewrite <- V1 in F1, Q1. rewrite <- V2 in F2. rewrite <- V3 in F3. rewrite <- V4 in F4. rewrite <- V5 in F5, Q5. rewrite <- V7 in F7. rewrite <- V8 in F8.
  rewrite <- V9 in Q0, Q1, Q5. clear V0 V1 V2 V3 V4 V5 V7 V8 V9 E0 E1 E2 E3 E4 E5 E6 E7 E8 E9.
  cbn [bank fb_cond1 fb_cond2 fb_cond3 fb_cond4] in C1, C2, C3, C4.
  destruct (cond_zero _ _ _ C1) as [C1a C1b]. destruct (cond_zero _ _ _ C2) as [C2a C2b]. destruct (cond_zero _ _ _ C3) as [C3a C3b]. destruct (cond_zero _ _ _ C4) as [C4a C4b].
  destruct c1 as [c1a c1b], c2 as [c2a c2b], c3 as [c3a c3b], c4 as [c4a c4b]. cbn [fst snd] in *.
  match type of H with context [filter_signal ?n ?d l ?c] => assert (Z1 : Forall isz (fst (filter_signal (N:=N) n d l c))) by (apply filter_zero; auto); destruct (filter_signal (N:=N) n d l c) as [y1 e1] end.
  cbn [fst] in Z1.
  match type of H with context [filter_signal ?n ?d y1 ?c] => assert (Z2 : Forall isz (fst (filter_signal (N:=N) n d y1 c))) by (apply filter_zero; auto); destruct (filter_signal (N:=N) n d y1 c) as [y2 e2] end.
  cbn [fst] in Z2.
  match type of H with context [filter_signal ?n ?d y2 ?c] => assert (Z3 : Forall isz (fst (filter_signal (N:=N) n d y2 c))) by (apply filter_zero; auto); destruct (filter_signal (N:=N) n d y2 c) as [y3 e3] end.
  cbn [fst] in Z3.
  match type of H with context [filter_signal ?n ?d y3 ?c] => assert (Z4 : Forall isz (fst (filter_signal (N:=N) n d y3 c))) by (apply filter_zero; auto); destruct (filter_signal (N:=N) n d y3 c) as [y4 e4] end.
  cbn [fst] in Z4. injection H as <- _. exact Z4.
Qed.
(** The spectrogram of silence. *)
Lemma build_zero nb (f f' : Filterbank N) (s : AudioSignal N) (w : AnalysisWindow N) (sp : Spectrogram N) : filters_finite lm nb (sample_rate s) -> fb_min_freq f = MINIMUM_FREQ ->
  0 < hop_size w -> 1 <= win_size w -> Forall isz (data_matrix s) -> build nb f s w = (f', Ok sp) ->
  forall i j, (i < nb)%nat -> (j < mcols (sp_data sp))%nat -> isz (mget (sp_data sp) i j).
Proof.
  intros FF Hm Hh Hw HZ B i j Hi Hj.
  destruct (C31_entry nb f s w f' sp i j Hh Hw B Hi Hj) as (x & y & e & Ex & AB & Ly & E). rewrite E. rewrite Hm in AB.
  assert (ZX : Forall isz x). { rewrite Ex. apply Forall_forall. intros v Hv. apply In_firstn in Hv. apply In_skipn in Hv. rewrite Forall_forall in HZ. auto. }
  assert (ZY : Forall isz y) by (eapply band_zero; [exact FF|exact ZX|exact AB]).
  apply (isz_sqrt (Bdiv mode_NE (nd_sum (N:=N) (map (fun v : f64 => Bmult mode_NE v v) y)) (f64_ofZ (win_size w)))).
  apply isz_div; [|lia]. apply isz_sum. apply Forall_forall. intros v Hv. apply in_map_iff in Hv as (u & <- & Hu).
  rewrite Forall_forall in ZY. apply isz_multl; [auto|]. apply isz_fin. auto.
Qed.

(** ** Prepared spectrograms of silence *)
Lemma minus_self (x : f64) : is_finite x = true -> Bminus mode_NE x x = f64_ofZ 0.
Proof.
  intros F. assert (Z0 : f64_ofZ 0 = B754_zero false) by (apply B2SF_inj; vm_compute; reflexivity). rewrite Z0.
  pose proof (Bminus_correct 53 1024 _ _ mode_NE x x F F) as H. cbn [round_mode] in H.
  replace (B2R x - B2R x)%R with 0%R in H by ring. rewrite round_0 in H by auto with typeclass_instances.
  rewrite Rlt_bool_true in H by (rewrite Rabs_R0; apply bpow_gt_0). destruct H as (A & B & C).
  rewrite Rcompare_Eq in C by reflexivity.
  assert (C' : Bsign (Bminus mode_NE x x) = false) by (rewrite C; destruct (Bsign x); reflexivity).
  destruct (proj2 (isz_iff _) (conj B A)) as [s Hs]. rewrite Hs in *. cbn [Bsign] in C'. subst s. reflexivity.
Qed.
Lemma cmp_self (c : f64) : is_nan c = false -> ncmp (N:=N) c c = Some Eq.
Proof.
  intros Hc. unfold ncmp. cbn [nltb neqb F64].
  assert (L : Bltb c c = false).
  { destruct (Bltb c c) eqn:E; auto. apply Bltb_true in E. destruct E as (_ & _ & E). lra. }
  assert (Q : Beqb c c = true) by (rewrite Beqb_refl_nan, Hc; reflexivity). rewrite L, Q. reflexivity.
Qed.
Lemma max_const_from (c : f64) (l : list f64) : is_nan c = false -> Forall (fun x => x = c) l -> nd_max_from (N:=N) c l = Some c.
Proof. intros Hc H. induction H as [|x t -> _ IH]; cbn [nd_max_from]; auto. rewrite cmp_self by auto. exact IH. Qed.
Lemma min_const_from (c : f64) (l : list f64) : is_nan c = false -> Forall (fun x => x = c) l -> nd_min_from (N:=N) c l = Some c.
Proof. intros Hc H. induction H as [|x t -> _ IH]; cbn [nd_min_from]; auto. rewrite cmp_self by auto. exact IH. Qed.
Lemma max_const (c m : f64) (l : list f64) : is_nan c = false -> Forall (fun x => x = c) l -> nd_max (N:=N) l = Some m -> m = c.
Proof.
  intros Hc H E. unfold nd_max in E. destruct l as [|x t]; [discriminate|]. pose proof (Forall_inv H) as Hx. cbv beta in Hx. subst x.
  rewrite (max_const_from c (c :: t) Hc H) in E. congruence.
Qed.
Lemma min_const (c m : f64) (l : list f64) : is_nan c = false -> Forall (fun x => x = c) l -> nd_min (N:=N) l = Some m -> m = c.
Proof.
  intros Hc H E. unfold nd_min in E. destruct l as [|x t]; [discriminate|]. pose proof (Forall_inv H) as Hx. cbv beta in Hx. subst x.
  rewrite (min_const_from c (c :: t) Hc H) in E. congruence.
Qed.
Lemma nmax_self (c : f64) : is_nan c = false -> nmax (N:=N) c c = c.
Proof. intros Hc. unfold nmax. destruct (nis_nan _); auto. destruct (nltb _ _ _); auto. Qed.
Lemma nmin_self (c : f64) : is_nan c = false -> nmin (N:=N) c c = c.
Proof. intros Hc. unfold nmin. destruct (nis_nan _); auto. destruct (nltb _ _ _); auto. Qed.
Lemma nmax_low (c f : f64) : is_nan c = false -> is_nan f = false -> Bltb f c = true -> nmax (N:=N) f c = c.
Proof.
  intros Hc Hf L. unfold nmax, nis_nan. cbn [neqb nltb F64]. rewrite !Beqb_refl_nan, Hc, Hf, L. reflexivity.
Qed.
Definition quiet : f64 := level_f64 lm (f64_ofZ 0).
Lemma level_isz (x : f64) : isz x -> level_f64 lm x = quiet.
Proof. intros [s ->]. unfold quiet, level_f64. destruct s; reflexivity. Qed.
(** Every entry is [c]. *)
Definition flat (c : f64) (m : mat N) : Prop := forall i j, (i < mrows m)%nat -> (j < mcols m)%nat -> (mget m i j : f64) = c.
Lemma flat_col c (m : mat N) j : flat c m -> (j < mcols m)%nat -> Forall (fun x : f64 => x = c) (mcol m j).
Proof. intros H Hj. apply Forall_forall. intros x Hx. apply in_map_iff in Hx as (i & <- & Hi). apply in_seq in Hi. apply H; auto. lia. Qed.
Lemma flat_all c (m : mat N) : mat_wf m -> flat c m -> Forall (fun x : f64 => x = c) (mflat m).
Proof.
  intros [W1 W2] H. apply Forall_forall. intros x Hx. unfold mflat in Hx. apply in_concat in Hx as (row & Hr & Hx).
  apply In_nth with (d := []) in Hr as (i & Hi & Er). rewrite Forall_forall in W2. assert (In row (mdata m)) by (rewrite <- Er; apply nth_In; auto).
  pose proof (W2 _ H0) as L. apply In_nth with (d := nofZ N 0) in Hx as (j & Hj & Ex). rewrite L in Hj. rewrite W1 in Hi.
  rewrite <- (H i j Hi Hj). unfold mget. rewrite Er. symmetry. exact Ex.
Qed.
Lemma prep_zero (r d r' d' : Spectrogram N) : log10_finite lm ->
  (forall i j, (i < mrows (sp_data r))%nat -> (j < mcols (sp_data r))%nat -> isz (mget (sp_data r) i j)) ->
  (forall i j, (i < mrows (sp_data d))%nat -> (j < mcols (sp_data d))%nat -> isz (mget (sp_data d) i j)) ->
  prepare_spectrograms_for_comparison r d = Ok (r', d') -> flat (f64_ofZ 0) (sp_data r') /\ flat (f64_ofZ 0) (sp_data d').
Proof.
  intros LG Zr Zd H.
  destruct (level_f64_fin lm (f64_ofZ 0) LG eq_refl) as [Fq Bq]. fold quiet in Fq, Bq.
  assert (Nq : is_nan quiet = false) by (apply is_nan_finite; exact Fq).
  assert (FL : is_nan (Bminus mode_NE quiet (f64_ofZ 45)) = false /\ Bltb (Bminus mode_NE quiet (f64_ofZ 45)) quiet = true).
  { apply Rabs_le_inv in Bq. assert (E45 : (B2R (f64_ofZ 45) = 45)%R) by (apply ofZ_B2R; lia).
    destruct (sub_small quiet (f64_ofZ 45)) as [A B]; try (apply ofZ_fin; lia); auto; try (rewrite ?E45; apply Rabs_le; lra).
    split; [apply is_nan_finite; exact A|]. apply Bltb_true. split; [apply is_nan_finite; exact A|]. split; [exact Nq|].
    rewrite !ext_finite by auto. rewrite B, E45.
    assert (E : (Rabs (rnd (B2R quiet - 45) - (B2R quiet - 45)) <= bpow radix2 (15 - 53))%R).
    { apply rnd_err; [lia|]. change (bpow radix2 15) with (IZR 32768). apply Rabs_le. lra. }
    apply Rabs_le_inv in E. assert ((bpow radix2 (15 - 53) <= bpow radix2 0)%R) by (apply bpow_le; lia). cbn [bpow] in *. lra. }
  destruct FL as [NF LF].
  unfold prepare_spectrograms_for_comparison in H. cbv zeta in H. step H as rd E. destruct rd as [r2 d2].
  set (r1 := raise_floor (convert_to_db r) _) in *. set (d1 := raise_floor (convert_to_db d) _) in *.
  assert (G : forall s : Spectrogram N, (forall i j, (i < mrows (sp_data s))%nat -> (j < mcols (sp_data s))%nat -> isz (mget (sp_data s) i j)) ->
     flat quiet (sp_data (raise_floor (convert_to_db s) NOISE_FLOOR_ABSOLUTE_DB))).
  { intros s Zs i j Hi Hj. cbn [raise_floor convert_to_db with_data sp_data mmap mrows mcols mbuild] in *.
    unfold mmap at 1. cbn [mrows mcols mbuild]. rewrite mget_mbuild by auto. unfold mmap. rewrite mget_mbuild by auto.
    change (nmax (N:=N) NOISE_FLOOR_ABSOLUTE_DB (sample_to_db (mget (sp_data s) i j))) with (lev (sp_data s) i j).
    rewrite (lev_level_f64 lm) by (auto; apply isz_fin, Zs; auto). apply level_isz, Zs; auto. }
  assert (F1 : flat quiet (sp_data r1)) by (apply G; exact Zr). assert (F2 : flat quiet (sp_data d1)) by (apply G; exact Zd). clear G.
  clearbody r1 d1. unfold raise_floor_per_frame in E. cbv zeta in E. step E as floors EF. injection E as <- <-.
  assert (FL : forall j fl, nth_error floors j = Some fl -> (fl : f64) = Bminus mode_NE quiet (f64_ofZ 45)).
  { intros j fl Hf.
    assert (Lf : List.length floors = Nat.min (mcols (sp_data r1)) (mcols (sp_data d1))) by (apply mapM_length in EF; rewrite seq_length in EF; exact EF).
    assert (Hj : (j < Nat.min (mcols (sp_data r1)) (mcols (sp_data d1)))%nat) by (rewrite <- Lf; apply nth_error_Some; congruence).
    destruct (mapM_nth _ _ _ j j EF) as (y & Hy & Ey).
    { rewrite nth_error_nth' with (d := 0%nat) by (rewrite seq_length; auto). rewrite seq_nth by auto. reflexivity. }
    assert (y = fl) by congruence. subst y. unfold frame_floor in Ey. step Ey as m1 E1. step Ey as m2 E2.
    destruct (nd_max (mcol (sp_data r1) j)) as [q1|] eqn:Q1; [|discriminate]. destruct (nd_max (mcol (sp_data d1) j)) as [q2|] eqn:Q2; [|discriminate].
    apply (max_const quiet) in Q1; [|exact Nq|apply flat_col; [exact F1|lia]]. apply (max_const quiet) in Q2; [|exact Nq|apply flat_col; [exact F2|lia]].
    injection E1 as <-. injection E2 as <-. rewrite Q1, Q2 in Ey. rewrite nmax_self in Ey by exact Nq.
    match type of Ey with Ok ?x = _ => assert (EE : x = fl) by congruence end. rewrite <- EE. reflexivity. }
  match type of H with context [with_data r1 ?x] => set (R2 := x) in * end. match type of H with context [with_data d1 ?x] => set (D2 := x) in * end.
  assert (G : forall m : mat N, flat quiet m -> flat quiet (mbuild (mrows m) (mcols m) (fun i j => match nth_error floors j with
                  | Some fl => nmax fl (mget m i j) | None => mget m i j end))).
  { intros m Fm i j Hi Hj. cbn [mbuild mrows mcols] in Hi, Hj. rewrite mget_mbuild by auto.
    destruct (nth_error floors j) as [fl|] eqn:Ef; [|apply Fm; auto]. apply FL in Ef. rewrite Ef, (Fm i j Hi Hj). apply nmax_low; auto. }
  assert (F3 : flat quiet R2) by (apply G; exact F1). assert (F4 : flat quiet D2) by (apply G; exact F2).
  assert (W3 : mat_wf R2) by apply mbuild_wf. assert (W4 : mat_wf D2) by apply mbuild_wf. clearbody R2 D2. clear G FL.
  step H as lo1 L1. step H as lo2 L2. unfold get_minimum in L1, L2. cbn [with_data sp_data] in L1, L2.
  destruct (nd_min (mflat R2)) as [q1|] eqn:Q1; [|discriminate]. destruct (nd_min (mflat D2)) as [q2|] eqn:Q2; [|discriminate].
  apply (min_const quiet) in Q1; [|exact Nq|apply flat_all; auto]. apply (min_const quiet) in Q2; [|exact Nq|apply flat_all; auto].
  injection L1 as <-. injection L2 as <-. rewrite Q1, Q2 in H. rewrite nmin_self in H by exact Nq. injection H as <- <-.
  split; intros i j Hi Hj; cbn [subtract_floor with_data sp_data mmap mbuild mrows mcols] in *; unfold mmap; rewrite mget_mbuild by auto.
  - rewrite (F3 i j Hi Hj). apply minus_self. exact Fq.
  - rewrite (F4 i j Hi Hj). apply minus_self. exact Fq.
Qed.

(** ** The similarity of two silent patches is exactly one *)
Lemma near_zero (m : mat N) i a j b : (1 <= mrows m)%nat -> (1 <= mcols m)%nat -> flat (f64_ofZ 0) m -> isz (near m i a j b).
Proof. intros R C F. unfold near. rewrite F by lia. apply isz_0. Qed.
Lemma win_fin i j : is_finite (mget (nsim_window (N:=N)) i j : f64) = true.
Proof.
  destruct i as [|[|[|i]]]; [| | |destruct i; destruct j; reflexivity]; (destruct j as [|[|[|j]]]; [| | |destruct j; reflexivity]); vm_compute; reflexivity.
Qed.
Lemma conv_zero (m : mat N) i j : (1 <= mrows m)%nat -> (1 <= mcols m)%nat -> flat (f64_ofZ 0) m -> isz (conv3 nsim_window m i j).
Proof.
  intros R C F. unfold conv3.
  assert (G : forall (l : list (nat * nat)) (a : f64), isz a -> isz (fold_left (nadd N)
    (map (fun ab => nmul N (near m i (fst ab) j (snd ab)) (mget nsim_window (2 - snd ab) (2 - fst ab))) l) a)).
  { induction l as [|ab t IH]; intros a Ha; cbn [map fold_left]; auto. apply IH. apply isz_plus; auto.
    apply isz_multl; [apply near_zero; auto|apply win_fin]. }
  apply G. apply isz_0.
Qed.
Lemma prod_flat (a b : mat N) : mrows b = mrows a -> mcols b = mcols a -> flat (f64_ofZ 0) a -> flat (f64_ofZ 0) b -> flat (f64_ofZ 0) (prod a b).
Proof.
  intros Hr Hc Fa Fb i j Hi Hj. unfold prod in *. cbn [mrows mcols mbuild] in Hi, Hj. rewrite mget_mbuild by auto. rewrite Fa, Fb by lia. reflexivity.
Qed.
Lemma entry_zero (r d : mat N) i j : consts_ok lm -> (1 <= mrows r)%nat -> (1 <= mcols r)%nat -> mrows d = mrows r -> mcols d = mcols r ->
  flat (f64_ofZ 0) r -> flat (f64_ofZ 0) d -> (nsim_entry r d i j : f64) = f64_ofZ 1.
Proof.
  intros (F1 & H1 & F3 & H3) R1 C1 Hr Hc Fr Fd. unfold nsim_entry, entry_of. cbv zeta.
  assert (Z1 : isz (conv3 nsim_window r i j)) by (apply conv_zero; auto).
  assert (Z2 : isz (conv3 nsim_window d i j)) by (apply conv_zero; try lia; auto).
  assert (Z3 : isz (conv3 nsim_window (prod r r) i j)) by (apply conv_zero; cbn [prod mbuild mrows mcols]; auto; apply prod_flat; auto).
  assert (Z4 : isz (conv3 nsim_window (prod d d) i j)) by (apply conv_zero; cbn [prod mbuild mrows mcols]; try lia; apply prod_flat; auto).
  assert (Z5 : isz (conv3 nsim_window (prod r d) i j)) by (apply conv_zero; cbn [prod mbuild mrows mcols]; auto; apply prod_flat; auto).
  set (mr := conv3 nsim_window r i j : f64) in *. set (md := conv3 nsim_window d i j : f64) in *.
  set (crr := conv3 nsim_window (prod r r) i j : f64) in *. set (cdd := conv3 nsim_window (prod d d) i j : f64) in *.
  set (crd := conv3 nsim_window (prod r d) i j : f64) in *. clearbody mr md crr cdd crd.
  assert (P1 : (0 < B2R (c1 lm))%R) by lra. assert (P3 : (0 < B2R (c3 lm))%R) by lra.
  assert (M : forall x y, isz x -> isz y -> isz (Bmult mode_NE x y)) by (intros; apply isz_multl; auto; apply isz_fin; auto).
  assert (NP : forall p, isz p -> Bltb p (f64_ofZ 0) = false) by (intros p [s ->]; destruct s; reflexivity).
  cbn [nltb F64]. rewrite NP by (apply M; (apply isz_minus; [auto|apply M; auto])).
  assert (A1 : ndiv N (nadd N (nmul N (nmul N mr md) (nofZ N 2)) nsim_c1) (nadd N (nadd N (nmul N mr mr) (nmul N md md)) nsim_c1) = f64_ofZ 1).
  { change (Bdiv mode_NE (Bplus mode_NE (Bmult mode_NE (Bmult mode_NE mr md) (f64_ofZ 2)) (c1 lm)) (Bplus mode_NE (Bplus mode_NE (Bmult mode_NE mr mr) (Bmult mode_NE md md)) (c1 lm)) = f64_ofZ 1).
    rewrite (plus_isz_l (Bmult mode_NE (Bmult mode_NE mr md) (f64_ofZ 2)) (c1 lm)); [|apply isz_multl; [auto|apply ofZ_fin; lia]|exact F1|exact P1].
    rewrite plus_isz_l; [|apply isz_plus; auto|exact F1|exact P1]. apply div_self; auto. }
  rewrite A1.
  match goal with |- context [ndiv N ?a ?b] => change (ndiv N a b) with (Bdiv mode_NE (Bplus mode_NE (Bminus mode_NE crd (Bmult mode_NE mr md)) (c3 lm))
     (Bplus mode_NE (Bsqrt mode_NE (Bmult mode_NE (Bminus mode_NE crr (Bmult mode_NE mr mr)) (Bminus mode_NE cdd (Bmult mode_NE md md)))) (c3 lm))) end.
  rewrite (plus_isz_l (Bminus mode_NE crd _)); [|apply isz_minus; auto|exact F3|exact P3].
  rewrite plus_isz_l; [|apply isz_sqrt; apply M; apply isz_minus; auto|exact F3|exact P3].
  rewrite div_self by auto. apply B2SF_inj. vm_compute. reflexivity.
Qed.
Definition all_one (l : list f64) : Prop := Forall (fun x => x = f64_ofZ 1) l.
Definition perfect_one (nb : nat) (p : PatchSim N) : Prop :=
  (similarity p : f64) = f64_ofZ 1 /\ List.length (freq_band_means p) = nb /\ all_one (freq_band_means p).
Lemma measure_zero (r d : mat N) p : consts_ok lm -> mat_wf r -> mat_wf d -> flat (f64_ofZ 0) r -> flat (f64_ofZ 0) d ->
  Z.of_nat (mrows r) <= 2 ^ 53 -> Z.of_nat (mcols r) <= 2 ^ 53 -> measure_patch_similarity r d = Ok p -> perfect_one (mrows r) p.
Proof.
  intros CO Wr Wd Fr Fd HR HC H. destruct (measure_dims _ _ _ H) as (Er & Ec & R1 & C1).
  destruct (measure_ok r d Wr Wd (eq_sym Er) (eq_sym Ec) R1 C1) as (means & stds & energy & Em & _ & _ & Nm & E).
  rewrite E in H. injection H as <-. unfold perfect_one. cbn [freq_band_means similarity new_patch_sim]. clear E.
  unfold mean_axis1_f in Em. cbn [mcols mbuild mdata] in Em. destruct (Nat.eqb_spec (mcols r) 0); [lia|].
  assert (E : means = map (fun row => Bdiv mode_NE (seq_sum (N:=N) row : f64) (f64_ofZ (Z.of_nat (mcols r))))
     (map (fun i => map (nsim_entry r d i) (seq 0 (mcols r))) (seq 0 (mrows r)))) by (injection Em as <-; reflexivity).
  clear Em.
  assert (FM : all_one means).
  { rewrite E. apply Forall_forall. intros x Hx. apply in_map_iff in Hx as (row & <- & Hrow). apply in_map_iff in Hrow as (i & <- & _).
    assert (Lr : zlen (map (nsim_entry r d i) (seq 0 (mcols r))) = Z.of_nat (mcols r)) by (unfold zlen; rewrite map_length, seq_length; reflexivity).
    assert (Lr2 : 1 <= zlen (map (nsim_entry r d i) (seq 0 (mcols r))) <= 2 ^ 53) by (rewrite Lr; lia).
    rewrite <- Lr. apply ones_fold; [|exact Lr2].
    apply Forall_forall. intros x Hx. apply in_map_iff in Hx as (j & <- & _). apply entry_zero; auto. }
  assert (LM : List.length means = mrows r) by (rewrite E, !map_length, seq_length; reflexivity).
  assert (LZ : zlen means <= 2 ^ 53) by (unfold zlen; rewrite LM; lia).
  split; [|auto]. apply (ones_mean means); [exact FM|exact LZ|]. unfold nd_mean. destruct means; [congruence|reflexivity].
Qed.

(** ** The patch search *)
Lemma patch_flat (deg : mat N) s w : flat (f64_ofZ 0) deg -> flat (f64_ofZ 0) (patch_at deg s w).
Proof.
  intros F i j Hi Hj. unfold patch_at in *. cbn [mbuild mrows mcols] in Hi, Hj. rewrite mget_mbuild by auto.
  destruct (Nat.ltb_spec (Z.to_nat s + j) (mcols deg)); [apply F; auto|reflexivity].
Qed.
(** Number of patches that start elsewhere than their predecessor. *)
Fixpoint fresh (prev : Z) (offs : list Z) : Z :=
  match offs with [] => 0 | o :: t => (if o =? prev then 0 else 1) + fresh o t end.
Lemma fresh_range offs : forall prev, 0 <= fresh prev offs <= zlen offs.
Proof. induction offs as [|o t IH]; intros prev; cbn [fresh]; [unfold zlen; cbn; lia|]. rewrite zlen_cons. specialize (IH o). destruct (o =? prev); lia. Qed.
Lemma total_fresh (sim : nat -> Z -> f64) offs : forall k prev acc j,
  (forall i, (i < List.length offs)%nat -> sim (k + i)%nat (nth i offs 0) = f64_ofZ 1) -> Pn j acc -> 0 <= j -> j + zlen offs <= 2 ^ 53 ->
  Pn (j + fresh prev offs) (total_from (N:=N) sim k prev acc offs).
Proof.
  induction offs as [|o t IH]; intros k prev acc j HS HP Hj HL; cbn [total_from fresh]; [rewrite Z.add_0_r; exact HP|].
  rewrite zlen_cons in HL.
  assert (HT : forall i, (i < List.length t)%nat -> sim (S k + i)%nat (nth i t 0) = f64_ofZ 1).
  { intros i Hi. specialize (HS (S i)). cbn [List.length nth] in HS. replace (k + S i)%nat with (S k + i)%nat in HS by lia. apply HS. lia. }
  destruct (o =? prev).
  - rewrite Z.add_0_l. apply IH; auto; lia.
  - rewrite Z.add_assoc. apply IH; auto; try lia. rewrite Z.add_comm.
    apply (Pn_plus 1 j); try lia; auto; [pose proof (zlen_nonneg t); lia|]. apply Pn_1. specialize (HS 0%nat). cbn [List.length nth] in HS.
    replace (k + 0)%nat with k in HS by lia. apply HS. lia.
Qed.
Lemma fresh_full offs : forall prev, fresh prev offs = zlen offs -> forall k, (k < List.length offs)%nat ->
  nth k offs 0 <> match k with O => prev | S k' => nth k' offs 0 end.
Proof.
  induction offs as [|o t IH]; intros prev H k Hk; [cbn in Hk; lia|]. cbn [fresh] in H. rewrite zlen_cons in H. pose proof (fresh_range t o).
  destruct (Z.eqb_spec o prev) as [|Ne]; [lia|]. destruct k as [|k]; cbn [nth]; auto. cbn [List.length] in Hk.
  specialize (IH o ltac:(lia) k ltac:(lia)). destruct k; auto.
Qed.
Lemma fresh_strict offs : forall prev, (forall k, (k < List.length offs)%nat ->
  nth k offs 0 <> match k with O => prev | S k' => nth k' offs 0 end) -> fresh prev offs = zlen offs.
Proof.
  induction offs as [|o t IH]; intros prev H; [reflexivity|]. cbn [fresh]. rewrite zlen_cons.
  pose proof (H 0%nat ltac:(cbn; lia)) as H0. cbn [nth] in H0. rewrite (proj2 (Z.eqb_neq o prev)) by auto. rewrite (IH o); [lia|].
  intros k Hk. pose proof (H (S k) ltac:(cbn; lia)) as Hs. cbn [nth] in Hs. destruct k; exact Hs.
Qed.
Lemma idx_low idx ps : 0 <= ps -> (forall r, In r idx -> 0 <= r) -> (forall k, (S k < List.length idx)%nat -> nth k idx 0 + ps <= nth (S k) idx 0) ->
  forall k, (k < List.length idx)%nat -> Z.of_nat k * ps <= nth k idx 0.
Proof. intros Hp H0 HG. induction k as [|k IH]; intros Hk; [apply H0, nth_In; lia|]. specialize (HG k Hk). specialize (IH ltac:(lia)). lia. Qed.
Lemma search_zero pf (refs : list (mat N)) idx (deg : mat N) fd radius fp out : consts_ok lm -> search_input refs idx deg radius fp -> (4 <= fp)%nat ->
  (forall k, (S k < List.length idx)%nat -> nth k idx 0 + Z.of_nat fp <= nth (S k) idx 0) ->
  (forall rp, In rp refs -> flat (f64_ofZ 0) rp) -> flat (f64_ofZ 0) deg -> Z.of_nat (mrows deg) <= 2 ^ 53 ->
  find_most_optimal_deg_patches pf refs idx deg fd radius = Ok out -> Forall (perfect_one (mrows deg)) out /\ Z.of_nat (List.length out) <= 2 ^ 31.
Proof.
  intros CO SI Hfp HG FR FD HR H. pose proof SI as [S1 S2 S3 S4 S5 S6 S7 S8 S9].
  destruct (find_parts _ _ _ _ _ _ _ _ SI H) as [Hc Hf].
  assert (Hidx : idx <> []) by (intros ->; destruct refs; [tauto|discriminate]).
  destruct (calc_max_last _ _ _ _ _ Hc Hidx) as [HP HL]. replace (Z.to_nat (Z.of_nat (List.length out) - 1)) with (List.length out - 1)%nat in HL by lia.
  set (n := List.length out) in *. set (c := Z.of_nat (mcols deg)) in *. set (h := Z.of_nat fp / 2) in *.
  assert (Hh : 2 * h <= Z.of_nat fp /\ h + 2 <= Z.of_nat fp) by (unfold h; pose proof (Z.div_mod (Z.of_nat fp) 2 ltac:(lia)); pose proof (Z.mod_pos_bound (Z.of_nat fp) 2 ltac:(lia)); lia).
  assert (Hc1 : 1 <= c) by (unfold c; lia).
  assert (Hh0 : 0 <= h) by (apply Z.div_pos; lia).
  assert (I0 : forall r, In r idx -> 0 <= r) by (intros r Hr; apply S8; auto).
  pose proof (idx_low idx (Z.of_nat fp) ltac:(lia) I0 HG) as LOW. unfold zlen in HP.
  assert (NB : Z.of_nat n <= 2 ^ 31).
  { pose proof (LOW (n - 1)%nat ltac:(lia)). destruct (S8 (nth (n - 1) idx 0)); [apply nth_In; lia|]. nia. }
  assert (SIM : forall k s, (k < n)%nat -> exists rp p, nth_error refs k = Some rp /\ measure_patch_similarity rp (patch_at deg s (mcols rp)) = Ok p /\ perfect_one (mrows deg) p).
  { intros k s Hk. destruct (nth_error refs k) as [rp|] eqn:Er; [|apply nth_error_None in Er; lia].
    pose proof (nth_error_In _ _ Er) as Ir. destruct (S3 rp Ir) as (W1 & R1 & K1).
    destruct (measure_ok rp (patch_at deg s (mcols rp)) W1 (patch_at_wf _ _ _)) as (a & b & e & _ & _ & _ & _ & E); cbn [patch_at mbuild mrows mcols]; try lia.
    exists rp. eexists. split; [reflexivity|]. split; [exact E|]. rewrite <- R1.
    apply (measure_zero rp (patch_at deg s (mcols rp))); auto; try lia; [apply patch_at_wf|apply patch_flat; auto]. }
  assert (ONE : forall k s, (k < n)%nat -> (sim_at refs deg k s : f64) = f64_ofZ 1).
  { intros k s Hk. destruct (SIM k s Hk) as (rp & p & E1 & E2 & E3 & _). unfold sim_at. rewrite E1, E2. exact E3. }
  destruct (C25_f64 lm pf refs idx deg fd radius fp out SI) as (offs & (AL & AW & AM) & DE & OP); [|exact H|].
  { intros k s Hk _. rewrite ONE by auto. split; reflexivity. }
  fold n c in AL, AW, AM, OP, DE.
  set (offs' := map (fun r => Z.max 0 (r - h - 1)) (firstn n idx)).
  assert (L' : List.length offs' = n) by (unfold offs'; rewrite map_length, firstn_length; lia).
  assert (E' : forall k, (k < n)%nat -> nth k offs' 0 = Z.max 0 (nth k idx 0 - h - 1)).
  { intros k Hk. unfold offs'. rewrite (nth_indep _ 0 (Z.max 0 (0 - h - 1))) by (fold offs'; lia).
    rewrite (map_nth (fun r => Z.max 0 (r - h - 1)) (firstn n idx) 0 k). rewrite nth_firstn_lt by auto. reflexivity. }
  assert (UP : forall k, (k < n)%nat -> nth k idx 0 - h - 1 < c).
  { intros k Hk. assert (nth k idx 0 <= nth (n - 1) idx 0); [|lia].
    assert (G : forall j, (k <= j < List.length idx)%nat -> nth k idx 0 <= nth j idx 0).
    { induction j as [|j IH]; intros Hj; [replace k with O by lia; lia|]. destruct (Nat.eq_dec k (S j)) as [->|]; [lia|].
      specialize (IH ltac:(lia)). specialize (HG j ltac:(lia)). lia. }
    apply G. lia. }
  assert (STR : forall k, (S k < n)%nat -> nth k offs' 0 < nth (S k) offs' 0).
  { intros k Hk. rewrite !E' by lia. pose proof (HG k ltac:(lia)). assert (0 <= nth k idx 0) by (apply I0, nth_In; lia). lia. }
  assert (AD : admissible (radius * Z.of_nat fp) c idx n offs').
  { split; [exact L'|]. split; [|intros k Hk; pose proof (STR k Hk); lia]. intros k Hk. rewrite E' by auto. specialize (UP k Hk). unfold in_window.
    assert (0 <= nth k idx 0) by (apply I0, nth_In; lia). split; [lia|]. nia. }
  specialize (OP offs' AD).
  assert (TOT : forall o, List.length o = n -> match o with [] => True | x :: t => Pn (1 + fresh x t) (total (sim_at refs deg) o) end).
  { intros o Lo. destruct o as [|x t]; auto. cbn [total]. cbn [List.length] in Lo. apply total_fresh; try lia.
    - intros i Hi. apply ONE. lia.
    - apply Pn_1. apply ONE. lia.
    - unfold zlen. lia. }
  pose proof (TOT offs AL) as T1. pose proof (TOT offs' L') as T2. destruct offs as [|x t]; [cbn in AL; lia|]. clear TOT.
  destruct offs' as [|x' t'] eqn:Eo; [cbn in L'; lia|]. cbn [List.length] in AL, L'.
  assert (FU : fresh x' t' = zlen t').
  { apply fresh_strict. intros k Hk. specialize (STR k ltac:(lia)). cbn [nth] in STR. destruct k; cbn [nth] in STR; lia. }
  assert (FL : fresh x t = zlen t).
  { pose proof (fresh_range t x). apply Bleb_true in OP. destruct OP as (_ & _ & OP). destruct T1 as [A1 B1], T2 as [A2 B2].
    rewrite !ext_finite in OP by assumption. rewrite B1, B2 in OP. apply le_IZR in OP. unfold zlen in *. lia. }
  pose proof (fresh_full t x FL) as NL.
  split; [|exact NB]. apply Forall_forall. intros e He. apply In_nth_error in He as (k & Hk).
  assert (Kn : (k < n)%nat) by (apply nth_error_Some; congruence).
  destruct (DE k e Hk) as (rp & p & E1 & E2 & _ & _ & _ & _ & E3).
  assert (LK : lost_at (x :: t) k = false).
  { unfold lost_at. destruct k as [|k]; auto. specialize (NL k ltac:(lia)). cbn [nth]. apply Z.eqb_neq. destruct k; exact NL. }
  rewrite LK in E3. destruct E3 as (Q1 & Q2 & _). destruct (SIM k (nth k (x :: t) 0) Kn) as (rp' & p' & G1 & G2 & G3).
  assert (rp' = rp) by congruence. subst rp'. assert (p' = p) by congruence. subst p'. unfold perfect_one in *. rewrite Q1, Q2. exact G3.
Qed.

(** Reference patches start at least a patch length apart. *)
Lemma collect_gap {M} ps (cs : list (list (num M))) : forall i, 0 < ps ->
  StronglySorted (fun a b => a + ps <= b) (collect_active (N:=M) ps i cs) /\ Forall (fun x => i <= x) (collect_active (N:=M) ps i cs).
Proof.
  induction cs as [|c t IH]; intros i Hp; cbn [collect_active]; [split; constructor|].
  destruct (IH (i + ps) Hp) as [A B].
  assert (C : Forall (fun x => i <= x) (collect_active ps (i + ps) t)) by (eapply Forall_impl; [|exact B]; cbv beta; lia).
  destruct (nleb M _ _); [|auto]. split; [constructor; auto|constructor; [lia|auto]].
Qed.
Lemma grid_gap a b n : 0 < b -> forall k, StronglySorted (fun x y => x + b <= y) (map (fun i => a + b * i) (zrange k n)).
Proof.
  intros Hb k. remember (Z.to_nat (n - k)) as c eqn:E. revert k E. induction c as [|c IH]; intros k E.
  - rewrite zrange_empty by lia. constructor.
  - rewrite zrange_cons by lia. cbn [map]. constructor; [apply IH; lia|].
    apply Forall_forall. intros x Hx. apply in_map_iff in Hx as (i & <- & Hi). apply in_zrange in Hi. nia.
Qed.
Lemma idx_gap {M} pf cr (m : mat M) s w idx : 2 <= creator_patch_size cr ->
  create_ref_patch_indices pf cr m s w = Ok idx -> forall k, (S k < List.length idx)%nat -> nth k idx 0 + creator_patch_size cr <= nth (S k) idx 0.
Proof.
  intros Hp H. assert (SS : StronglySorted (fun a b => a + creator_patch_size cr <= b) idx).
  { destruct cr as [ps|ps]; cbn [create_ref_patch_indices creator_patch_size] in *.
    - unfold vad_patch_indices in H. repeat (inv_do H; match goal with H2 : _ = Ok idx |- _ => rename H2 into H end).
      cbv zeta in H. repeat (inv_do H; match goal with H2 : _ = Ok idx |- _ => rename H2 into H end).
      injection H as <-. apply collect_gap. lia.
    - cbv zeta in H. destruct (Z.ltb_spec (Z.of_nat (mcols m)) (ps + ps / 2)).
      + unfold image_patch_indices in H. destruct (Z.ltb_spec (Z.of_nat (mcols m)) (ps + ps / 2)); [discriminate|lia].
      + destruct (C17_grid pf ps (Z.of_nat (mcols m)) Hp H0) as (n & _ & E & _). rewrite H in E. injection E as ->.
        apply grid_gap. lia. }
  clear H. induction SS as [|x t S IH F]; intros k Hk; [cbn in Hk; lia|]. cbn [List.length] in Hk. destruct k as [|k].
  - cbn [nth]. destruct t as [|y t]; [cbn in Hk; lia|]. inversion F; auto.
  - cbn [nth]. apply IH. lia.
Qed.

(** ** Fine alignment *)
Lemma fd_small rate : 1 <= rate < 2 ^ 32 ->
  tpos (Bdiv mode_NE (Bmult mode_NE (f64_ofZ (win_size (new_window (N:=N) rate OVERLAP WINDOW_DURATION))) (OVERLAP (N:=N))) (f64_ofZ rate)) 0.
Proof.
  intros HR. set (W := win_size _). assert (HW : 0 <= W <= rate).
  { unfold W. rewrite window_exact by lia. split; [apply Z.div_pos; lia|]. apply Z.div_le_upper_bound; lia. }
  clearbody W. destruct (ofZ_exact W ltac:(lia)) as [FW EW]. destruct (ofZ_exact rate ltac:(lia)) as [FR ER].
  pose proof (overlap_pos lm) as [[FO BO] PO]. change (bpow radix2 0) with 1%R in BO. rewrite Rabs_pos_eq in BO by auto.
  assert (TW : tpos (f64_ofZ W) 32) by (apply tpos_ofZ; lia).
  pose proof (tpos_mult (f64_ofZ W) (OVERLAP (N:=N)) 32 0 ltac:(lia) TW (overlap_pos lm)) as TM.
  assert (W0 : (0 <= IZR W <= IZR rate)%R) by (split; apply IZR_le; lia). assert (R1 : (1 <= IZR rate)%R) by (apply IZR_le; lia).
  assert (LE : (B2R (Bmult mode_NE (f64_ofZ W) (OVERLAP (N:=N))) <= IZR rate)%R).
  { destruct (Bmult_fin (f64_ofZ W) (OVERLAP (N:=N)) FW FO) as [F E].
    - apply (bpow_1000_big _ 32); [lia|]. apply rnd_abs_bpow; [lia|]. rewrite EW. rewrite Rabs_pos_eq by (apply Rmult_le_pos; lra).
      apply Rle_trans with (IZR rate); [nra|]. change (bpow radix2 32) with (IZR (2 ^ 32)). apply IZR_le. lia.
    - rewrite E, EW. rewrite <- (rnd_IZR rate) by lia. apply rnd_le. nra. }
  set (x := Bmult mode_NE (f64_ofZ W) (OVERLAP (N:=N))) in *. clearbody x. destruct TM as [BX PX].
  pose proof (tpos_divZ x rate 32 ltac:(lia) ltac:(lia) (conj BX PX)) as [[F _] P].
  split; [|exact P]. split; [exact F|]. rewrite Rabs_pos_eq by exact P. rewrite (div_val x rate 32) by (auto; lia). change (bpow radix2 0) with 1%R.
  rewrite <- (rnd_IZR 1) by lia. apply rnd_le. apply Rmult_le_reg_r with (IZR rate); [lra|]. unfold Rdiv. rewrite Rmult_assoc, Rinv_l, Rmult_1_r by lra. lra.
Qed.
Lemma coarse_small idx c (fd : f64) ps (p : PatchSim N) : (forall r, In r idx -> 0 <= r <= 2 ^ 31) -> c <= 2 ^ 31 -> tpos fd 0 -> 0 <= ps <= 32 ->
  coarse_patch (N:=N) idx c fd (Bmult mode_NE fd (f64_ofZ ps)) p ->
  tpos (ref_patch_start_time p) 31 /\ tpos (ref_patch_end_time p) 32 /\ tpos (deg_patch_start_time p) 31 /\ tpos (deg_patch_end_time p) 32.
Proof.
  intros Hi Hc Hfd Hps (sim & lost & off & r & -> & Ho & Hr). unfold set_times. cbn [ref_patch_start_time ref_patch_end_time deg_patch_start_time deg_patch_end_time].
  change (nmul N ?x ?y) with (Bmult mode_NE x y). change (nadd N ?x ?y) with (Bplus mode_NE x y). change (nofZ N ?x) with (f64_ofZ x).
  assert (A : forall z, 0 <= z <= 2 ^ 31 -> tpos (Bmult mode_NE (f64_ofZ z) fd) 31).
  { intros z Hz. apply (tpos_mult _ _ 31 0); [lia| |exact Hfd]. apply tpos_ofZ; lia. }
  assert (PD : tpos (Bmult mode_NE fd (f64_ofZ ps)) 31).
  { apply (tpos_mono _ (0 + 5)); [lia|]. apply tpos_mult; auto; [lia|]. apply tpos_ofZ; lia. }
  assert (A1 := A r (Hi r Hr)). assert (A2 := A off ltac:(lia)).
  split; [exact A1|]. split; [exact (proj1 (plus_up _ _ 31 ltac:(lia) A1 PD))|].
  destruct lost; split; try (apply tpos_ofZ; lia); [exact A2|exact (proj1 (plus_up _ _ 31 ltac:(lia) A2 PD))].
Qed.
Lemma slice_zero (s s' : AudioSignal N) (a b : f64) : silent lm s -> sig_len s <= 2 ^ 40 -> 1 <= sample_rate s <= 2 ^ 20 -> tpos a 32 -> tpos b 32 ->
  slice s a b = Ok s' -> silent lm s' /\ sample_rate s' = sample_rate s /\ sig_len s' <= sig_len s + 2 ^ 52.
Proof.
  intros SI HL HR Ta Tb H. unfold slice in H. cbv zeta in H. step H as body E. match type of H with Ok ?x = _ => assert (EE : x = s') by congruence end. rewrite <- EE. clear EE H. unfold silent, sig_len in *. cbn [data_matrix sample_rate].
  assert (NA : nltb N a (nofZ N 0) = false).
  { cbn [nltb nofZ F64]. destruct (Bltb a (f64_ofZ 0)) eqn:Q; auto. apply Bltb_true in Q. destruct Q as (_ & _ & Q). rewrite ofZ_ext, ext_finite in Q by (try lia; apply Ta). destruct Ta. lra. }
  rewrite NA. apply zslice_part in E. destruct E as (x & y & E).
  assert (ZB : Forall (fun x : f64 => is_finite x = true /\ B2R x = 0%R) body).
  { apply Forall_forall. intros z Hz. rewrite Forall_forall in SI. apply SI. rewrite E. apply in_or_app. right. apply in_or_app. left. exact Hz. }
  assert (LB : zlen body <= zlen (data_matrix s)) by (rewrite E; unfold zlen; rewrite !app_length; lia).
  assert (UP : as_usize (nsub N (nmul N b (nofZ N (sample_rate s))) (nofZ N (zlen (data_matrix s)))) <= 2 ^ 52).
  { set (len := zlen (data_matrix s)) in *. assert (L0 : 0 <= len) by apply zlen_nonneg.
    assert (T1 : tpos (Bmult mode_NE b (f64_ofZ (sample_rate s))) 52) by (apply (tpos_mult _ _ 32 20); [lia|exact Tb|apply tpos_ofZ; lia]).
    change (as_usize (N:=N) (Bminus mode_NE (Bmult mode_NE b (f64_ofZ (sample_rate s))) (f64_ofZ len)) <= 2 ^ 52).
    set (t := Bmult mode_NE b (f64_ofZ (sample_rate s))) in *. clearbody t. destruct T1 as [[Ft Bt] Pt]. rewrite Rabs_pos_eq in Bt by auto.
    destruct (ofZ_exact len ltac:(lia)) as [Fl El]. assert (LR : (0 <= IZR len <= IZR (2 ^ 40))%R) by (split; apply IZR_le; lia).
    change (bpow radix2 52) with (IZR (2 ^ 52)) in Bt.
    assert (B52 : (Rabs (B2R t - B2R (f64_ofZ len)) <= bpow radix2 52)%R).
    { rewrite El. change (bpow radix2 52) with (IZR (2 ^ 52)). assert (IZR (2 ^ 40) <= IZR (2 ^ 52))%R by (apply IZR_le; lia). apply Rabs_le. lra. }
    destruct (Bminus_fin t (f64_ofZ len) Ft Fl) as [F B]; [apply (bpow_1000_big _ 52); [lia|]; apply rnd_abs_bpow; [lia|exact B52]|].
    unfold as_usize. change (f64_cast 0 (2 ^ 64 - 1) (Bminus mode_NE t (f64_ofZ len)) <= 2 ^ 52). rewrite cast_fin by exact F.
    assert (Q : (B2R (Bminus mode_NE t (f64_ofZ len)) <= IZR (2 ^ 52))%R).
    { rewrite B. pose proof (rnd_abs_bpow _ 52 ltac:(lia) B52) as R. apply Rabs_le_inv in R. change (bpow radix2 52) with (IZR (2 ^ 52)) in R. lra. }
    assert (Ztrunc (B2R (Bminus mode_NE t (f64_ofZ len))) <= 2 ^ 52); [|lia].
    rewrite <- (Ztrunc_IZR (2 ^ 52)). apply Ztrunc_le. exact Q. }
  split; [|split; [reflexivity|]].
  - destruct (0 <? _); auto. apply Forall_app. split; auto. apply Forall_forall. intros z Hz. apply repeat_spec in Hz. subst z. split; [apply (ofZ_fin 0); lia|apply (ofZ_B2R 0); lia].
  - destruct (0 <? _); [|lia]. unfold zlen in *. rewrite app_length, repeat_length. lia.
Qed.
Lemma silent_isz (s : AudioSignal N) : silent lm s -> Forall isz (data_matrix s).
Proof. intros H. eapply Forall_impl; [|exact H]. intros x Hx. apply isz_iff. exact Hx. Qed.
Lemma part_silent (l w : list f64) : part_of l w -> Forall (fun x : f64 => is_finite x = true /\ B2R x = 0%R) w -> Forall (fun x : f64 => is_finite x = true /\ B2R x = 0%R) l.
Proof. intros (x & y & E) H. rewrite E in H. apply Forall_app in H as [_ H]. apply Forall_app in H as [H _]. exact H. Qed.
Lemma realign_zero pf nb (rs ds : AudioSignal N) (w : AnalysisWindow N) (f f' : Filterbank N) (old p : PatchSim N) :
  consts_ok lm -> log10_finite lm -> filters_finite lm nb (sample_rate rs) -> fb_min_freq f = MINIMUM_FREQ -> 0 < hop_size w -> 1 <= win_size w ->
  silent lm rs -> silent lm ds -> sample_rate ds = sample_rate rs -> 1 <= sample_rate rs <= 2 ^ 20 -> sig_len rs <= 2 ^ 40 -> sig_len ds <= 2 ^ 40 -> Z.of_nat nb <= 2 ^ 53 ->
  tpos (ref_patch_start_time old) 31 /\ tpos (ref_patch_end_time old) 32 /\ tpos (deg_patch_start_time old) 31 /\ tpos (deg_patch_end_time old) 32 ->
  perfect_one nb old -> realign_patch pf nb rs ds w f old = (f', Ok p) -> perfect_one nb p.
Proof.
  intros CO LG FF HM Hh Hw Zr Zd HR Hrate Lr Ld Hnb (T1 & T2 & T3 & T4) Ho H.
  apply realign_inv in H as [-> |(ra & da & ra' & da' & lag & fb1 & rspec & fb2 & dspec & rp & dp & new & S1 & S2 & AL & B1 & B2 & PR & ME & NL & ->)]; auto.
  destruct (slice_zero rs ra (ref_patch_start_time old) (ref_patch_end_time old)) as (ZA & RA & LA); auto; try lia; [apply (tpos_mono _ 31); [lia|exact T1]|].
  destruct (slice_zero ds da (deg_patch_start_time old) (deg_patch_end_time old)) as (ZD & RD & LD); auto; try lia; [apply (tpos_mono _ 31); [lia|exact T3]|].
  apply C11_all in AL; [|congruence]. destruct AL as (A1 & A2 & A3 & A4 & l & SH & A5).
  assert (Zr' : silent lm ra') by (eapply part_silent; [exact A4|exact ZA]).
  assert (Zd' : silent lm da') by (eapply part_silent; [exact A5|]; eapply silent_shift; [exact ZD|exact SH]).
  assert (Lr' : sig_len ra' <= sig_len ra) by (destruct A4 as (x & y & E); unfold sig_len; rewrite E; unfold zlen; rewrite !app_length; lia).
  pose proof (build_shape _ _ _ _ _ _ B1) as (_ & R1 & _). pose proof (build_shape _ _ _ _ _ _ B2) as (_ & R2 & _).
  assert (HM1 : fb_min_freq fb1 = MINIMUM_FREQ) by (pose proof (build_min nb f ra' w) as Q; rewrite B1 in Q; cbn [fst] in Q; rewrite Q; exact HM).
  assert (FF1 : filters_finite lm nb (sample_rate ra')) by (rewrite A2, RA; exact FF).
  assert (FF2 : filters_finite lm nb (sample_rate da')) by (rewrite A3, RD, HR; exact FF).
  destruct (prep_zero rspec dspec rp dp LG) as [F1 F2]; auto.
  { rewrite R1. apply (build_zero nb f fb1 ra' w rspec FF1 HM Hh Hw (silent_isz _ Zr') B1). }
  { rewrite R2. apply (build_zero nb fb1 fb2 da' w dspec FF2 HM1 Hh Hw (silent_isz _ Zd') B2). }
  pose proof (prepare_shape _ _ _ _ PR) as ((W1 & Q1 & K1 & _) & (W2 & Q2 & K2 & _)).
  assert (CB : Z.of_nat (mcols (sp_data rspec)) <= 1 + sig_len ra') by (eapply build_cols_le; [|exact B1]; lia).
  assert (P : perfect_one nb new).
  { rewrite <- R1, <- Q1. apply (measure_zero (sp_data rp) (sp_data dp)); auto; [rewrite Q1, R1; lia|]. rewrite K1. lia. }
  unfold choose_result. rewrite NL. unfold perfect_one. cbn [similarity freq_band_means]. exact P.
Qed.
Lemma finely_zero pf nb (rs ds : AudioSignal N) (w : AnalysisWindow N) :
  consts_ok lm -> log10_finite lm -> filters_finite lm nb (sample_rate rs) -> 0 < hop_size w -> 1 <= win_size w ->
  silent lm rs -> silent lm ds -> sample_rate ds = sample_rate rs -> 1 <= sample_rate rs <= 2 ^ 20 -> sig_len rs <= 2 ^ 40 -> sig_len ds <= 2 ^ 40 -> Z.of_nat nb <= 2 ^ 53 ->
  forall (l : list (PatchSim N)) (f f' : Filterbank N) out, fb_min_freq f = MINIMUM_FREQ ->
  Forall (fun old : PatchSim N => tpos (ref_patch_start_time old) 31 /\ tpos (ref_patch_end_time old) 32 /\ tpos (deg_patch_start_time old) 31 /\ tpos (deg_patch_end_time old) 32) l ->
  Forall (perfect_one nb) l -> finely_align_and_recreate_patches pf nb rs ds w f l = (f', Ok out) -> Forall (perfect_one nb) out.
Proof.
  intros CO LG FF Hh Hw Zr Zd HR Hrate Lr Ld Hnb. induction l as [|old t IH]; intros f f' out HM HT HP H; cbn [finely_align_and_recreate_patches] in H.
  { injection H as _ <-. constructor. }
  apply Forall_cons_iff in HT as [HT1 HT2]. apply Forall_cons_iff in HP as [HP1 HP2].
  pose proof (realign_same pf nb rs ds w f f old eq_refl) as (_ & RM & _).
  destruct (realign_patch pf nb rs ds w f old) as [fb1 r] eqn:E. cbn [fst] in RM.
  destruct r as [p| |]; try discriminate.
  destruct (finely_align_and_recreate_patches pf nb rs ds w fb1 t) as [fb2 rest] eqn:E2.
  injection H as _ H. step H as o Eo. injection H as <-. constructor.
  - eapply realign_zero; [..|exact E]; eauto.
  - eapply IH; [..|rewrite E2, Eo; reflexivity]; auto. rewrite RM. exact HM.
Qed.

(** ** Averages over the patches *)
Lemma add_into_ones j : 0 <= j < 2 ^ 53 -> forall (a b c : list f64), add_into (N:=N) a b = Ok c -> Forall (Pn j) a -> all_one b -> Forall (Pn (j + 1)) c.
Proof.
  intros Hj. induction a as [|x a IH]; intros [|y b] c H HA HB; cbn [add_into] in H; try discriminate; try (injection H as <-; constructor).
  step H as t Et. match type of H with Ok ?z = _ => assert (E : z = c) by congruence end. rewrite <- E.
  apply Forall_cons_iff in HA as [? ?]. apply Forall_cons_iff in HB as [? ?]. constructor; [apply (Pn_plus j 1); auto; try lia; apply Pn_1; auto|eapply IH; eauto].
Qed.
Lemma means_one (l : list (PatchSim N)) (out : list f64) : Forall (fun p : PatchSim N => all_one (freq_band_means p)) l -> zlen l <= 2 ^ 53 ->
  calc_per_patch_mean_freq_band_means l = Ok out -> all_one out.
Proof.
  intros HF HL H. unfold calc_per_patch_mean_freq_band_means in H. step H as n En. step H as s Es.
  match type of H with Ok ?z = _ => assert (E : z = out) by congruence end. rewrite <- E. clear E H.
  assert (L1 : 1 <= zlen l).
  { unfold num_bands_of in En. step En as p0 Ep. apply zget_ok in Ep. destruct Ep as [_ Ep]. destruct l; [discriminate|]. rewrite zlen_cons. pose proof (zlen_nonneg l). lia. }
  assert (S : Forall (Pn (zlen l)) s).
  { assert (G : forall (k : list (PatchSim N)) a j, 0 <= j -> j + zlen k <= 2 ^ 53 -> Forall (fun p : PatchSim N => all_one (freq_band_means p)) k -> Forall (Pn j) a ->
       foldM (fun (acc : list (num N)) (p : PatchSim N) => add_into acc (freq_band_means p)) a k = Ok s -> Forall (Pn (j + zlen k)) s).
    { induction k as [|p k IH]; intros a j Hj Hb Hk Ha Hs; cbn [foldM] in Hs; [injection Hs as <-; replace (j + zlen []) with j by (unfold zlen; cbn; lia); auto|].
      rewrite zlen_cons in *. pose proof (zlen_nonneg k).
      step Hs as a2 Ea. apply Forall_cons_iff in Hk as [? ?]. replace (j + (zlen k + 1)) with ((j + 1) + zlen k) by lia. replace (j + (1 + zlen k)) with ((j + 1) + zlen k) by lia.
      eapply IH; [lia|lia|eassumption| |exact Hs]. eapply add_into_ones; eauto. lia. }
    rewrite <- (Z.add_0_l (zlen l)). eapply G; [lia|lia|exact HF| |exact Es]. apply Forall_forall. intros x Hx. apply repeat_spec in Hx. subst x. apply Pn_0. }
  apply Forall_forall. intros x Hx. apply in_map_iff in Hx as (y & <- & Hy). rewrite Forall_forall in S. apply Pn_div; [lia|]. apply S. exact Hy.
Qed.
Lemma all_one_repeat (l : list f64) n : all_one l -> List.length l = n -> l = repeat (f64_ofZ 1) n.
Proof. intros H <-. induction H as [|x t -> _ IH]; cbn [List.length repeat]; [reflexivity|]. f_equal. exact IH. Qed.

(** ** The comparison *)
Lemma align_audible rate most (l out : list f64) lag : audible l -> audible (skipn (Z.to_nat most) l) -> shifted (N:=N) rate most l out lag -> audible out.
Proof.
  intros [F E] [_ T] S. destruct S as [|k Hk Hl|k Hk].
  - split; auto.
  - split; [apply Forall_forall; intros x Hx; apply In_skipn in Hx; rewrite Forall_forall in F; auto|].
    apply Exists_exists in T as (x & Ix & Hx). apply Exists_exists. exists x. split; auto.
    replace (Z.to_nat most) with (Z.to_nat k + (Z.to_nat most - Z.to_nat k))%nat in Ix by lia. rewrite <- skipn_skipn in Ix. eapply In_skipn; exact Ix.
  - split.
    + apply Forall_app. split; auto. apply Forall_forall. intros x Hx. apply repeat_spec in Hx. subst x. split; [apply (ofZ_fin 0); lia|].
      pose proof (ofZ_B2R 0 ltac:(lia)) as Q. match goal with |- (Rabs ?x <= 2)%R => replace x with (IZR 0) by (symmetry; exact Q) end. rewrite Rabs_R0. lra.
    + apply Exists_app. right. exact E.
Qed.
Lemma silent_ref pf nb v ws files (m m' : Manager N) calls a b r (rs ds : AudioSignal N) :
  libm_limits lm -> log10_finite lm -> squares_sane lm -> filters_finite lm nb (sample_rate rs) -> new_manager nb v ws = Ok m ->
  1 <= ws <= 2 ^ 20 -> Z.of_nat nb <= 2 ^ 53 ->
  load_as_mono (files a) = Ok rs -> load_as_mono (files b) = Ok ds ->
  Forall (fun x : f64 => is_finite x = true /\ B2R x = 0%R) (data_matrix rs) ->
  audible (data_matrix ds) -> audible (skipn (Z.to_nat (sig_len rs / 2)) (data_matrix ds)) ->
  1 <= sample_rate rs <= 2 ^ 20 -> sig_len rs <= 2 ^ 30 -> sig_len ds <= 2 ^ 30 ->
  run pf nb files (after_calls pf nb m calls) a b = (m', Ok r) ->
  fvnsim r = repeat (f64_ofZ 1) nb /\ (vnsim r : f64) = f64_ofZ 1 /\
  (forall p, In p (patch_sims r) -> (similarity p : f64) = f64_ofZ 1 /\ freq_band_means p = repeat (f64_ofZ 1) nb) /\
  predict_quality (mg_mapper m) (repeat (f64_ofZ 1) nb) = Ok (moslqo r).
Proof.
  intros LL LG SQ FF Hm Hws Hnb L1 L2 Zr Ad At Hrate S1 S2 H. pose proof (sane_consts lm SQ) as CO.
  set (m1 := after_calls pf nb m calls) in *. destruct (after_same pf nb calls m) as (Sw & Cr & Mp & Fm). fold m1 in Sw, Cr, Mp, Fm.
  assert (Hsw : mg_search_window m = ws) by (unfold new_manager in Hm; destruct v as [u|[s|]]; cbn [bind] in Hm; try discriminate; inversion Hm; reflexivity).
  assert (Hps : creator_patch_size (mg_creator m) = 20 \/ creator_patch_size (mg_creator m) = 30).
  { unfold new_manager in Hm. destruct v as [u|[s|]]; cbn [bind] in Hm; try discriminate; inversion Hm; auto. }
  assert (HM : fb_min_freq (mg_filterbank m1) = MINIMUM_FREQ).
  { rewrite Fm. unfold new_manager in Hm. destruct v as [u|[s|]]; cbn [bind] in Hm; try discriminate; inversion Hm; reflexivity. }
  clearbody m1.
  pose proof H as H0. apply run_ok in H0. destruct H0 as (rs0 & ds0 & al0 & lag0 & f0 & A1 & A2 & _ & A4 & H0).
  apply calculate_ok in H0. destruct H0 as (LF & _ & _ & _ & _ & NE & VN & (q & PQ & MQ) & CM & _). clear rs0 ds0 al0 lag0 f0 A1 A2 A4.
  apply run_parts in H. destruct H as (rs' & ds' & al & lag & fb1 & fb2 & fb3 & rspec & dspec & rp & dp & idx & pts & info & H).
  cbv zeta in H. destruct H as (L1' & L2' & RT & GA & B1 & B2 & PR & CI & PT & FD & FA & _).
  assert (rs' = rs) by congruence. assert (ds' = ds) by congruence. subst rs' ds'. clear L1' L2'.
  assert (Hnb1 : (1 <= nb)%nat) by (destruct nb; [|lia]; destruct (fvnsim r); [discriminate VN|discriminate LF]).
  rewrite Cr in CI, PT. set (ps := creator_patch_size (mg_creator m)) in *.
  set (w := new_window (sample_rate rs) OVERLAP WINDOW_DURATION) in *.
  assert (WE : win_size w = (4 * sample_rate rs + 25) / 50) by (apply (window_exact lm (sample_rate rs) OVERLAP); lia).
  assert (W0 : 0 <= win_size w <= 2 ^ 20).
  { rewrite WE. split; [apply Z.div_pos; lia|]. apply Z.div_le_upper_bound; lia. }
  pose proof (hop_quarter lm (sample_rate rs)) as HQ. cbv zeta in HQ. fold w in HQ. specialize (HQ ltac:(lia)). clear WE.
  assert (Hh : 0 < hop_size w) by (pose proof (build_inv _ _ _ _ _ _ B1) as (_ & Q & _); assert (0 <= hop_size w) by apply usize_bound; lia).
  assert (Hw4 : 4 <= win_size w) by (pose proof (Z.div_small (win_size w) 4); lia).
  apply C10_shift in GA. destruct GA as (RA & SH).
  assert (Lrs : 1 <= sig_len rs) by (pose proof (build_inv _ _ _ _ _ _ B1) as (Q & _); unfold sig_len; lia).
  assert (AL : sig_len al <= sig_len ds + 2 ^ 29).
  { unfold sig_len in *. pose proof (Z.div_le_upper_bound (zlen (data_matrix rs)) 2 (2 ^ 29)).
    destruct SH; unfold zlen in *; rewrite ?app_length, ?repeat_length, ?skipn_length; lia. }
  assert (Aal : audible (data_matrix al)) by (eapply align_audible; [exact Ad|exact At|exact SH]).
  set (scaled := scale_to_match_sound_pressure_level rs al) in *.
  assert (Zs : silent lm scaled) by (apply (C42_zero lm rs al); auto; lia).
  assert (Rsc : sample_rate scaled = sample_rate rs) by (change (sample_rate scaled) with (sample_rate al); congruence).
  assert (Ls : sig_len scaled = sig_len al) by apply scale_len.
  assert (HM1 : fb_min_freq fb1 = MINIMUM_FREQ) by (pose proof (build_min nb (mg_filterbank m1) rs w) as Q; rewrite B1 in Q; cbn [fst] in Q; rewrite Q; exact HM).
  assert (HM2 : fb_min_freq fb2 = MINIMUM_FREQ) by (pose proof (build_min nb fb1 scaled w) as Q; rewrite B2 in Q; cbn [fst] in Q; rewrite Q; exact HM1).
  pose proof (build_shape _ _ _ _ _ _ B1) as (_ & R1 & _). pose proof (build_shape _ _ _ _ _ _ B2) as (_ & R2 & _).
  destruct (prep_zero rspec dspec rp dp LG) as [F1 F2]; auto.
  { rewrite R1. apply (build_zero nb _ fb1 rs w rspec FF HM Hh ltac:(lia) (silent_isz rs Zr) B1). }
  { rewrite R2. apply (build_zero nb fb1 fb2 scaled w dspec ltac:(rewrite Rsc; exact FF) HM1 Hh ltac:(lia) (silent_isz _ Zs) B2). }
  pose proof (prepare_shape _ _ _ _ PR) as ((W1 & Q1 & K1 & _) & (W2 & Q2 & K2 & _)).
  pose proof (build_cols_le lm _ _ _ _ _ _ (proj1 W0) B1) as C1. pose proof (build_cols_le lm _ _ _ _ _ _ (proj1 W0) B2) as C2.
  pose proof (build_cols _ _ _ _ _ _ Hh B2) as C3.
  assert (C4 : 1 <= Z.of_nat (mcols (sp_data dspec))).
  { rewrite C3. pose proof (build_inv _ _ _ _ _ _ B2) as (Q & _). pose proof (Z.div_pos (zlen (data_matrix scaled) - win_size w) (hop_size w)). lia. }
  destruct (patches_self ps _ _ _ ltac:(lia) PT) as [PL PS].
  pose proof (find_times _ _ _ _ _ _ _ FD) as (p0 & E0 & CP).
  assert (P0 : Z.of_nat (mcols p0) = ps) by (apply patches_cols in PT; [|lia]; apply PT; eapply nth_error_In; eauto). rewrite P0 in CP.
  assert (IB : forall i, In i idx -> 0 <= i <= 1 + sig_len rs).
  { intros i Hi. apply (In_nth _ _ 0) in Hi as (k & Hk & <-). destruct (PS k Hk) as (X1 & X2 & _). rewrite K1 in X2. lia. }
  rewrite Sw, Hsw, wrap_i32_id in FD by lia.
  assert (SI : search_input pts idx (sp_data dp) ws (Z.to_nat ps)).
  { constructor; try (rewrite ?Z2Nat.id by lia; lia).
    - destruct pts; [discriminate|discriminate].
    - intros q0 Hq. apply In_nth_error in Hq as (k & Hk). assert (Hlt : (k < List.length idx)%nat) by (rewrite <- PL; apply nth_error_Some; congruence).
      destruct (PS k Hlt) as (_ & _ & E). rewrite E in Hk. injection Hk as <-. split; [apply patch_at_wf|]. cbn [patch_at mbuild mrows mcols]. split; [congruence|reflexivity].
    - intros i Hi. specialize (IB i Hi). rewrite Z2Nat.id by lia. nia.
    - intros k Hk. pose proof (sorted_nth _ (idx_sorted pf (mg_creator m) _ _ _ _ ltac:(lia) CI) k Hk). lia. }
  destruct (search_zero pf pts idx (sp_data dp) (calculate_frame_duration (nmul N (nofZ N (win_size w)) (win_overlap w)) (sample_rate rs)) ws (Z.to_nat ps) info CO SI) as [PF LI]; auto.
  { lia. }
  { intros k Hk. rewrite Z2Nat.id by lia. apply (idx_gap pf (mg_creator m) _ _ _ _ ltac:(lia) CI k Hk). }
  { intros q0 Hq. apply In_nth_error in Hq as (k & Hk). assert (Hlt : (k < List.length idx)%nat) by (rewrite <- PL; apply nth_error_Some; congruence).
    destruct (PS k Hlt) as (_ & _ & E). rewrite E in Hk. injection Hk as <-. apply patch_flat. exact F1. }
  { rewrite Q2, R2. lia. }
  rewrite Q2, R2 in PF.
  assert (PP : Forall (perfect_one nb) (patch_sims r)).
  { eapply (finely_zero pf nb rs scaled w CO LG FF Hh); [lia|exact Zr|exact Zs|exact Rsc|lia|lia|lia|lia|exact HM2| |exact PF|exact FA].
    eapply Forall_impl; [|exact CP]. intros old Ho. eapply coarse_small; [| | | |exact Ho].
    - intros i Hi. specialize (IB i Hi). lia.
    - rewrite K2. lia.
    - apply fd_small. lia.
    - lia. }
  assert (LP : zlen (patch_sims r) <= 2 ^ 53) by (unfold zlen; rewrite (finely_len _ _ _ _ _ _ _ _ _ FA); lia).
  assert (FV : all_one (fvnsim r)).
  { eapply means_one; [|exact LP|exact CM]. eapply Forall_impl; [|exact PP]. intros p (_ & _ & X). exact X. }
  assert (FVE : fvnsim r = repeat (f64_ofZ 1) nb) by (apply all_one_repeat; auto).
  assert (ZL : zlen (fvnsim r) <= 2 ^ 53) by (unfold zlen; rewrite LF; exact Hnb).
  assert (VV : (vnsim r : f64) = f64_ofZ 1) by (eapply ones_mean; [exact FV|exact ZL|exact VN]).
  split; [exact FVE|]. split; [exact VV|]. split.
  - intros p Hp. rewrite Forall_forall in PP. destruct (PP p Hp) as (X1 & X2 & X3). split; auto. apply all_one_repeat; auto.
  - rewrite MQ. unfold alter_for_similarity_extremes. rewrite Mp in PQ. rewrite FVE in PQ. rewrite VV.
    assert (E : nltb N (f64_ofZ 1) (nlit N 15 2) = false) by (vm_compute; reflexivity). rewrite E. exact PQ.
Qed.
Lemma mono_tail (vs : list Z) rate k (s : AudioSignal N) : Forall i16_range vs -> Exists (fun v => v <> 0) (skipn k vs) ->
  load_as_mono (WavOk 1 rate 16 (map Some vs)) = Ok s -> audible (data_matrix s) /\ audible (skipn k (data_matrix s)).
Proof.
  intros HI HE HL.
  assert (HE' : Exists (fun v => v <> 0) vs).
  { apply Exists_exists in HE as (v & Iv & Nv). apply Exists_exists. exists v. split; auto. eapply In_skipn; exact Iv. }
  pose proof (mono_audible lm vs rate s HI HE' HL) as A. split; [exact A|]. destruct A as [A _].
  split; [apply Forall_forall; intros x Hx; apply In_skipn in Hx; rewrite Forall_forall in A; auto|].
  destruct (C08_mono lm rate vs s HI HL) as [L E].
  apply Exists_exists in HE as (v & Iv & Nv). apply (In_nth _ _ 0) in Iv as (i & Li & Ev). rewrite skipn_length in Li.
  assert (NS : nth i (skipn k vs) 0 = nth (k + i) vs 0).
  { rewrite <- (firstn_skipn k vs) at 2. rewrite app_nth2; rewrite firstn_length; [f_equal; lia|lia]. }
  rewrite NS in Ev. destruct (E (k + i)%nat ltac:(lia)) as (x & E1 & F & B). rewrite Ev in B.
  apply Exists_exists. exists x. split.
  - assert (FL : (List.length (firstn k (data_matrix s)) <= k + i)%nat).
    { apply (Nat.le_trans _ k); [apply firstn_le_length|lia]. }
    pose proof (eq_trans (eq_sym (nth_error_app2 (firstn k (data_matrix s)) (skipn k (data_matrix s)) FL)) (eq_trans (f_equal (fun l => nth_error l (k + i)) (firstn_skipn k (data_matrix s))) E1)) as E2.
    eapply nth_error_In; exact E2.
  - rewrite B. assert (B40 : (bpow radix2 (-40) <= / 32767)%R) by (change (bpow radix2 (-40)) with (/ 1099511627776)%R; apply Rinv_le; lra).
    assert (G3 : generic_format radix2 (FLT_exp (-1074) 53) (bpow radix2 (-40))) by (apply generic_format_bpow; unfold FLT_exp; lia).
    apply abs_round_ge_generic; auto with typeclass_instances.
    unfold Rdiv. rewrite Rabs_mult, (Rabs_pos_eq (/ 32767)) by lra.
    assert (1 <= Rabs (IZR v))%R by (rewrite <- abs_IZR; apply IZR_le; lia). nra.
Qed.
Lemma silent_ref_files pf nb v ws files (m m' : Manager N) calls a b r rate n vs :
  libm_limits lm -> log10_finite lm -> squares_sane lm -> filters_finite lm nb rate -> new_manager nb v ws = Ok m ->
  1 <= ws <= 2 ^ 20 -> Z.of_nat nb <= 2 ^ 53 -> 1 <= rate <= 2 ^ 20 ->
  files a = WavOk 1 rate 16 (map Some (repeat 0 n)) -> Z.of_nat n <= 2 ^ 30 ->
  files b = WavOk 1 rate 16 (map Some vs) -> Forall i16_range vs -> zlen vs <= 2 ^ 30 -> Exists (fun x => x <> 0) (skipn (n / 2) vs) ->
  run pf nb files (after_calls pf nb m calls) a b = (m', Ok r) ->
  fvnsim r = repeat (f64_ofZ 1) nb /\ (vnsim r : f64) = f64_ofZ 1 /\
  (forall p, In p (patch_sims r) -> (similarity p : f64) = f64_ofZ 1 /\ freq_band_means p = repeat (f64_ofZ 1) nb) /\
  predict_quality (mg_mapper m) (repeat (f64_ofZ 1) nb) = Ok (moslqo r).
Proof.
  intros LL LG SQ FF Hm Hws Hnb Hr Ea Hn Eb HI Hl HE H.
  destruct (C08_gen N 1 rate (repeat 0 n) n) as (rs & L1 & N1 & R1); auto.
  { rewrite repeat_length. lia. }
  { apply Forall_forall. intros x Hx. apply repeat_spec in Hx. subst x. unfold i16_range. lia. }
  destruct (C08_gen N 1 rate vs (List.length vs)) as (ds & L2 & N2 & R2); auto; [lia|].
  change (Z.of_nat 1) with 1 in L1, L2.
  assert (LN : sig_len rs = Z.of_nat n) by (unfold sig_len, zlen; rewrite N1; reflexivity).
  assert (EH : Z.to_nat (sig_len rs / 2) = (n / 2)%nat) by (rewrite LN; change 2 with (Z.of_nat 2); rewrite <- Nat2Z.inj_div, Nat2Z.id; reflexivity).
  destruct (mono_tail vs rate (n / 2) ds HI HE L2) as [A1 A2].
  apply (silent_ref pf nb v ws files m m' calls a b r rs ds); auto.
  - rewrite R1. exact FF.
  - rewrite Ea. exact L1.
  - rewrite Eb. exact L2.
  - eapply mono_silent; eauto.
  - rewrite EH. exact A2.
  - rewrite R1. exact Hr.
  - rewrite LN. exact Hn.
  - unfold sig_len, zlen in *. rewrite N2. exact Hl.
Qed.
Lemma silent_ref_alike pf nb v ws files1 files2 (m m1 m2 : Manager N) calls1 calls2 a1 b1 a2 b2 r1 r2 rate n1 n2 vs1 vs2 :
  libm_limits lm -> log10_finite lm -> squares_sane lm -> filters_finite lm nb rate -> new_manager nb v ws = Ok m ->
  1 <= ws <= 2 ^ 20 -> Z.of_nat nb <= 2 ^ 53 -> 1 <= rate <= 2 ^ 20 ->
  files1 a1 = WavOk 1 rate 16 (map Some (repeat 0 n1)) -> Z.of_nat n1 <= 2 ^ 30 ->
  files1 b1 = WavOk 1 rate 16 (map Some vs1) -> Forall i16_range vs1 -> zlen vs1 <= 2 ^ 30 -> Exists (fun x => x <> 0) (skipn (n1 / 2) vs1) ->
  files2 a2 = WavOk 1 rate 16 (map Some (repeat 0 n2)) -> Z.of_nat n2 <= 2 ^ 30 ->
  files2 b2 = WavOk 1 rate 16 (map Some vs2) -> Forall i16_range vs2 -> zlen vs2 <= 2 ^ 30 -> Exists (fun x => x <> 0) (skipn (n2 / 2) vs2) ->
  run pf nb files1 (after_calls pf nb m calls1) a1 b1 = (m1, Ok r1) ->
  run pf nb files2 (after_calls pf nb m calls2) a2 b2 = (m2, Ok r2) ->
  moslqo r1 = moslqo r2 /\ vnsim r1 = vnsim r2 /\ fvnsim r1 = fvnsim r2.
Proof.
  intros LL LG SQ FF Hm Hws Hnb Hr Ea1 Hn1 Eb1 HI1 Hl1 HE1 Ea2 Hn2 Eb2 HI2 Hl2 HE2 H1 H2.
  destruct (silent_ref_files pf nb v ws files1 m m1 calls1 a1 b1 r1 rate n1 vs1) as (A1 & A2 & _ & A3); auto.
  destruct (silent_ref_files pf nb v ws files2 m m2 calls2 a2 b2 r2 rate n2 vs2) as (B1 & B2 & _ & B3); auto.
  split; [|split].
  - exact (f_equal (fun x => match x with Ok y => y | _ => moslqo r1 end) (eq_trans (eq_sym A3) B3)).
  - exact (eq_trans A2 (eq_sym B2)).
  - exact (eq_trans A1 (eq_sym B1)).
Qed.
End Sil.
