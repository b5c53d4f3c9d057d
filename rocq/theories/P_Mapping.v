(** Proofs of C61: the mapping to a score changes the score only. *)
From Coq Require Import Reals Lra Lia.
From Verif Require Import Base Num RNum Mat M_Audio M_Align M_Nsim M_Patch M_Selector M_Spectro M_Visqol Spec Spec2 Spec3 Spec6
  P_Base P_Manager P_Run P_Score P_Agg P_Exp P_R P_Range.

Section Mapping.
Context {N : NumOps}.

Lemma predict_rejects v (w : Z) (nb : nat) (m : Manager N) sims p : new_manager nb v w = Ok m -> predict_quality (mg_mapper m) sims = Panic p -> rejects v sims.
Proof.
  unfold new_manager. destruct v as [u|[model|]]; cbn [bind]; try discriminate; intros [= <-]; cbn [mg_mapper snd predict_quality]; [discriminate|].
  unfold svr_predict. intros H. exists model. split; [reflexivity|].
  destruct (Z.ltb_spec (svr_features model) (zlen sims)); [auto|]. destruct (svr_value model sims); [discriminate|auto].
Qed.

(** Outcomes of one comparison under two mappings. *)
Definition alike (reject1 reject2 : list (num N) -> Prop) (x y : res (SimilarityResult N)) : Prop :=
  match x, y with
  | Ok r1, Ok r2 => same_but_score r1 r2
  | Err e1, Err e2 => e1 = e2
  | Panic _, Panic _ => True
  | Ok r, Panic _ => reject2 (fvnsim r)
  | Panic _, Ok r => reject1 (fvnsim r)
  | _, _ => False
  end.
Lemma calc_alike pf nb rs ds (f : Filterbank N) w c sw m1 m2 (R1 R2 : list (num N) -> Prop) :
  (forall s p, predict_quality m1 s = Panic p -> R1 s) -> (forall s p, predict_quality m2 s = Panic p -> R2 s) ->
  alike R1 R2 (snd (calculate_similarity pf nb rs ds f w c m1 sw)) (snd (calculate_similarity pf nb rs ds f w c m2 sw)).
Proof.
  intros H1 H2. unfold calculate_similarity. cbv zeta.
  destruct (build nb f rs w) as [fb1 [rspec| |]]; cbn [snd alike]; auto.
  match goal with |- context [build nb fb1 ?s w] => destruct (build nb fb1 s w) as [fb2 [dspec| |]] end; cbn [snd alike]; auto.
  match goal with |- context [match ?x with Ok _ => _ | Err _ => _ | Panic _ => _ end] => destruct x as [info| |] end; cbn [snd alike]; auto.
  match goal with |- context [finely_align_and_recreate_patches pf nb rs ?d w fb2 ?i] =>
    destruct (finely_align_and_recreate_patches pf nb rs d w fb2 i) as [fb3 [l| |]] end; cbn [snd bind alike]; auto.
  destruct (calc_per_patch_mean_freq_band_means l) as [fv| |]; cbn [bind alike]; auto.
  destruct (calc_per_patch_mean_freq_band_std_devs _ _ _) as [sd| |]; cbn [bind alike]; auto.
  destruct (calc_per_patch_mean_freq_band_degraded_energy _) as [en| |]; cbn [bind alike]; auto.
  pose proof (ne_predict m1 fv) as N1. pose proof (ne_predict m2 fv) as N2.
  destruct (predict_quality m1 fv) as [q1|e1|p1] eqn:E1; [|exfalso; eapply N1; eauto|];
    (destruct (predict_quality m2 fv) as [q2|e2|p2] eqn:E2; [|exfalso; eapply N2; eauto|]); cbn [bind alike]; auto;
    destruct (nd_mean fv); cbn [bind alike fvnsim]; auto; [repeat split|eauto|eauto].
Qed.

Lemma run_alike pf nb v1 v2 w (m1 m2 : Manager N) files a b : same_mode v1 v2 -> new_manager nb v1 w = Ok m1 -> new_manager nb v2 w = Ok m2 ->
  alike (rejects v1) (rejects v2) (snd (run pf nb files m1 a b)) (snd (run pf nb files m2 a b)).
Proof.
  intros SM E1 E2.
  pose proof (fun s p => predict_rejects v1 w nb m1 s p E1) as R1. pose proof (fun s p => predict_rejects v2 w nb m2 s p E2) as R2.
  assert (C : mg_search_window m1 = mg_search_window m2 /\ mg_creator m1 = mg_creator m2 /\ mg_filterbank m1 = mg_filterbank m2).
  { unfold new_manager in E1, E2. destruct v1 as [u1|[d1|]], v2 as [u2|[d2|]]; try contradiction; cbn [bind] in E1, E2; try discriminate;
      injection E1 as <-; injection E2 as <-; auto. }
  destruct C as (C1 & C2 & C3).
  unfold run. destruct (load_as_mono (files a)) as [rs| |]; cbn [snd alike]; auto.
  destruct (load_as_mono (files b)) as [ds| |]; cbn [snd alike]; auto.
  destruct (validate_input_audio rs ds); cbn [snd alike]; auto.
  unfold compute_results. destruct (globally_align pf rs ds) as [[[al lag]|]| |]; cbn [snd alike]; auto.
  rewrite <- C1, <- C2, <- C3.
  pose proof (calc_alike pf nb rs al (mg_filterbank m1) (new_window (sample_rate rs) OVERLAP WINDOW_DURATION) (mg_creator m1) (mg_search_window m1) (mg_mapper m1) (mg_mapper m2) _ _ R1 R2) as G.
  destruct (calculate_similarity pf nb rs al (mg_filterbank m1) _ _ (mg_mapper m1) _).
  destruct (calculate_similarity pf nb rs al (mg_filterbank m1) _ _ (mg_mapper m2) _). exact G.
Qed.
Lemma C61_all pf nb v1 v2 w (m1 m2 : Manager N) calls1 calls2 files a b : same_mode v1 v2 -> new_manager nb v1 w = Ok m1 -> new_manager nb v2 w = Ok m2 ->
  match snd (run pf nb files (after_calls pf nb m1 calls1) a b), snd (run pf nb files (after_calls pf nb m2 calls2) a b) with
  | Ok r1, Ok r2 => same_but_score r1 r2
  | Err e1, Err e2 => e1 = e2
  | Panic _, Panic _ => True
  | Ok r, Panic _ => rejects v2 (fvnsim r)
  | Panic _, Ok r => rejects v1 (fvnsim r)
  | _, _ => False
  end.
Proof. intros. rewrite !C05_mem. apply (run_alike pf nb v1 v2 w); auto. Qed.
End Mapping.

(** ** The wideband score in exact arithmetic *)
Open Scope R_scope.
Definition low_arg : R := 46851153 / 10000000 * (7655232 / 10000000 - 15 / 100).
Lemma exp_low : exp low_arg <= 18.
Proof.
  pose proof exp_tpt as [_ T].
  assert (S : exp (low_arg - 2 * tpt) <= 2).
  { apply Rle_trans with (texpz 8 (low_arg - 2 * tpt) + 4 * (low_arg - 2 * tpt) ^ 9 / IZR (zfact 9)).
    - apply (texp_upper 8 4 tpt exp_le_4). unfold low_arg, tpt; lra.
    - zfacts. unfold low_arg, tpt. lra. }
  replace low_arg with (tpt + tpt + (low_arg - 2 * tpt)) by lra. rewrite !exp_plus.
  pose proof (exp_pos tpt). pose proof (exp_pos (low_arg - 2 * tpt)).
  assert (exp tpt * exp tpt <= 9) by nra. nra.
Qed.
Lemma raw_low : 1.211 < r_raw false 0.15.
Proof.
  unfold r_raw. replace (46851153 / 10000000 * (0.15 - 7655232 / 10000000)) with (- low_arg) by (unfold low_arg; lra).
  rewrite exp_Ropp. pose proof exp_low. pose proof (exp_pos low_arg).
  assert (/ 18 <= / exp low_arg) by (apply Rinv_le_contravar; lra). lra.
Qed.
Lemma raw_top : r_raw false 1 < 4.15577.
Proof. rewrite r_raw_1. pose proof exp_tpt. lra. Qed.
Lemma raw_scale x : r_raw true x = 1.2031409 * r_raw false x.
Proof. unfold r_raw. lra. Qed.
Lemma raw_le s a b : a <= b -> r_raw s a <= r_raw s b.
Proof. intros [H| ->]; [left; apply r_raw_strict; auto|lra]. Qed.

Lemma wide_mapper nb u w (m : Manager RN) calls pf : new_manager nb (Wideband u) w = Ok m -> mg_mapper (after_calls pf nb m calls) = SpeechMapper (negb u).
Proof.
  intros H. destruct (after_same pf nb calls m) as (_ & _ & M & _). rewrite M. unfold new_manager in H. cbn [bind] in H. injection H as <-. reflexivity.
Qed.
Lemma vnsim_mean pf nb files (m m' : Manager RN) a b r : run pf nb files m a b = (m', Ok r) -> vnsim r = Rsum (fvnsim r) / IZR (zlen (fvnsim r)).
Proof.
  intros H. pose proof (C38_run _ _ _ _ _ _ _ _ H) as AV. cbv zeta in AV. destruct AV as (L1 & _ & _ & _ & V).
  etransitivity; [exact V|]. cbn [ndiv nofZ RN]. unfold zlen. apply (f_equal2 Rdiv (R_nd_sum (fvnsim r))). f_equal. f_equal. exact (eq_sym L1).
Qed.
Lemma wide_score nb u w (m m' : Manager RN) calls pf files a b r : new_manager nb (Wideband u) w = Ok m ->
  run pf nb files (after_calls pf nb m calls) a b = (m', Ok r) ->
  moslqo r = if Rlt_dec (vnsim r) 0.15 then 1 else r_raw (negb u) (vnsim r).
Proof.
  intros HM H. pose proof (vnsim_mean _ _ _ _ _ _ _ _ H) as VM. pose proof (C54_all _ _ _ _ _ _ _ _ H) as (_ & B & _).
  apply run_ok in H. destruct H as (rs & ds & al & lag & f' & _ & _ & _ & _ & H).
  apply calculate_ok in H. destruct H as (_ & _ & _ & _ & _ & PN & ME & (q & PQ & MO) & _ & _ & _).
  rewrite (wide_mapper _ _ _ _ _ _ HM) in PQ. cbn [predict_quality] in PQ. injection PQ as <-. rewrite R_speech in MO. 
  change (num RN) with R in *. rewrite <- VM in MO. rewrite MO. unfold alter_for_similarity_extremes.
  change (nltb RN (vnsim r) (nlit RN 15 2)) with (Rltb (vnsim r) (15 / 100)). 
  destruct (Rltb (vnsim r) (15 / 100)) eqn:E; destruct (Rlt_dec (vnsim r) 0.15) as [L|L]; try reflexivity;
    [apply Rltb_true in E; lra|apply Rltb_false in E; lra|].
  pose proof (raw_le false 0.15 (vnsim r) ltac:(lra)) as A1. pose proof (raw_le false (vnsim r) 1 ltac:(lra)) as A2.
  pose proof raw_low. pose proof raw_top. destruct (negb u); [rewrite raw_scale|]; rewrite Rmax_right, Rmin_right; lra.
Qed.

Lemma C61_gap_all nb u w (m m' : Manager RN) calls pf files a b r : new_manager nb (Wideband u) w = Ok m ->
  run pf nb files (after_calls pf nb m calls) a b = (m', Ok r) ->
  (vnsim r < 0.15 /\ moslqo r = 1) \/
  (0.15 <= vnsim r /\ if u then 1.211 < moslqo r < 4.156 else 1.456 < moslqo r < 5).
Proof.
  intros HM H. pose proof (C54_all _ _ _ _ _ _ _ _ H) as (_ & B & _). rewrite (wide_score _ _ _ _ _ _ _ _ _ _ _ HM H).
  change (num RN) with R in *. destruct (Rlt_dec (vnsim r) 0.15) as [L|L]; [left; auto|right; split; [lra|]].
  pose proof (raw_le false 0.15 (vnsim r) ltac:(lra)) as A1. pose proof (raw_le false (vnsim r) 1 ltac:(lra)) as A2.
  pose proof raw_low. pose proof raw_top. destruct u; cbn [negb]; [lra|]. rewrite raw_scale.
  assert (r_raw true 1 < 5) by (rewrite r_raw_1; pose proof exp_tpt; lra). rewrite raw_scale in *. lra.
Qed.
Lemma C61_factor_all nb w (m1 m2 m1' m2' : Manager RN) calls1 calls2 pf files a b r1 r2 : new_manager nb (Wideband false) w = Ok m1 -> new_manager nb (Wideband true) w = Ok m2 ->
  run pf nb files (after_calls pf nb m1 calls1) a b = (m1', Ok r1) -> run pf nb files (after_calls pf nb m2 calls2) a b = (m2', Ok r2) ->
  vnsim r1 = vnsim r2 /\ moslqo r1 = if Rlt_dec (vnsim r2) 0.15 then moslqo r2 else 1.2031409 * moslqo r2.
Proof.
  intros H1 H2 E1 E2. pose proof (C61_all pf nb (Wideband false) (Wideband true) w m1 m2 calls1 calls2 files a b I H1 H2) as G. rewrite E1, E2 in G. cbn [snd] in G.
  destruct G as (V & _). split; [exact V|]. rewrite (wide_score _ _ _ _ _ _ _ _ _ _ _ H1 E1), (wide_score _ _ _ _ _ _ _ _ _ _ _ H2 E2), V.
  change (num RN) with R in *. destruct (Rlt_dec (vnsim r2) 0.15); [reflexivity|]. cbn [negb]. apply raw_scale.
Qed.
(** Two pairs are ranked by similarity under either mapping. *)
Lemma C61_rank_all nb u w (m m' m'' : Manager RN) calls calls' pf files a b files' c d r s : new_manager nb (Wideband u) w = Ok m ->
  run pf nb files (after_calls pf nb m calls) a b = (m', Ok r) -> run pf nb files' (after_calls pf nb m calls') c d = (m'', Ok s) ->
  (moslqo r < moslqo s <-> vnsim r < vnsim s /\ 0.15 <= vnsim s).
Proof.
  intros HM H K. rewrite (wide_score _ _ _ _ _ _ _ _ _ _ _ HM H), (wide_score _ _ _ _ _ _ _ _ _ _ _ HM K).
  assert (P : forall x, 0.15 <= x -> 1 < r_raw (negb u) x).
  { intros x Hx. pose proof (raw_le false 0.15 x Hx). pose proof raw_low. destruct (negb u); [rewrite raw_scale|]; lra. }
  change (num RN) with R in *. destruct (Rlt_dec (vnsim r) 0.15), (Rlt_dec (vnsim s) 0.15).
  - split; lra.
  - specialize (P (vnsim s) ltac:(lra)). split; lra.
  - specialize (P (vnsim r) ltac:(lra)). split; lra.
  - split; [|intros [L _]; apply r_raw_strict; auto]. intros L. split; [|lra]. destruct (Rlt_dec (vnsim r) (vnsim s)) as [|Q]; auto.
    pose proof (raw_le (negb u) (vnsim s) (vnsim r) ltac:(lra)). lra.
Qed.
(** A wideband comparison succeeds under one mapping if it does under the other. *)
Lemma C61_both_all N pf nb u1 u2 w (m1 m2 m1' : Manager N) calls1 calls2 files a b r1 : new_manager nb (Wideband u1) w = Ok m1 -> new_manager nb (Wideband u2) w = Ok m2 ->
  run pf nb files (after_calls pf nb m1 calls1) a b = (m1', Ok r1) ->
  exists m2' r2, run pf nb files (after_calls pf nb m2 calls2) a b = (m2', Ok r2) /\ same_but_score r1 r2.
Proof.
  intros H1 H2 E1. pose proof (C61_all pf nb (Wideband u1) (Wideband u2) w m1 m2 calls1 calls2 files a b I H1 H2) as G. rewrite E1 in G. cbn [snd] in G.
  destruct (run pf nb files (after_calls pf nb m2 calls2) a b) as [m2' [r2|e|p]]; cbn [snd] in G; [eauto|contradiction|destruct G as (mo & Q & _); discriminate Q].
Qed.
