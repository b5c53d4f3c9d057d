(** Shapes, error values and state independence of the whole pipeline, for every
    numeric instance. *)
From Verif Require Import Base Num Mat M_Audio M_Align M_Spectro M_Patch M_Nsim M_Selector M_Visqol.
From Verif Require Import P_Base P_Mat.

(** ** Absence of error values *)
Definition no_err {A} (r : res A) : Prop := forall e, r <> Err e.

Lemma no_err_ok {A} (a : A) : no_err (Ok a). Proof. intros e; discriminate. Qed.
Lemma no_err_panic {A} p : no_err (@Panic A p). Proof. intros e; discriminate. Qed.
Lemma no_err_bind {A B} (x : res A) (f : A -> res B) :
  no_err x -> (forall a, no_err (f a)) -> no_err (bind x f).
Proof. destruct x; simpl; intros H1 H2; auto. exfalso; eapply H1; eauto. intros ?; discriminate. Qed.
Lemma no_err_mapM {A B} (f : A -> res B) l : (forall a, no_err (f a)) -> no_err (mapM f l).
Proof. intros H e; apply mapM_no_err; intros; apply H. Qed.
Lemma no_err_foldM {A S} (f : S -> A -> res S) l : (forall s a, no_err (f s a)) ->
  forall s, no_err (foldM f s l).
Proof. intros H; induction l; simpl; intros s; [apply no_err_ok|]. apply no_err_bind; auto. Qed.

Create HintDb noerr.
#[global] Hint Resolve no_err_ok no_err_panic : noerr.
Ltac ne_step :=
  match goal with
  | |- no_err (bind _ _) => apply no_err_bind; [|intros ?]
  | |- no_err (mapM _ _) => apply no_err_mapM; intros ?
  | |- no_err (foldM _ _ _) => apply no_err_foldM; intros ? ?
  | |- no_err (if ?b then _ else _) => destruct b
  | |- no_err (match ?x with _ => _ end) => destruct x
  | |- no_err (let '(_, _) := ?x in _) => destruct x
  end.
Ltac ne := repeat (first [ solve [eauto with noerr] | ne_step | progress cbv zeta ]).

Lemma ne_usub pf a b : no_err (usub pf a b). Proof. unfold usub; ne. Qed.
Lemma ne_uadd pf a b : no_err (uadd pf a b). Proof. unfold uadd; ne. Qed.
Lemma ne_umul pf a b : no_err (umul pf a b). Proof. unfold umul; ne. Qed.
Lemma ne_udiv a b : no_err (udiv a b). Proof. unfold udiv; ne. Qed.
Lemma ne_alloc a : no_err (alloc8 a). Proof. unfold alloc8; ne. Qed.
Lemma ne_i32 pf a : no_err (i32_op pf a). Proof. unfold i32_op; ne. Qed.
Lemma ne_zget {A} (l : list A) i : no_err (zget l i). Proof. unfold zget; ne. Qed.
Lemma ne_zslice {A} (l : list A) a b : no_err (zslice l a b). Proof. unfold zslice; ne. Qed.
Lemma ne_zset {A} (l : list A) i x : no_err (zset l i x). Proof. unfold zset; ne. Qed.
#[global] Hint Resolve ne_usub ne_uadd ne_umul ne_udiv ne_alloc ne_i32 ne_zget ne_zslice ne_zset : noerr.

Section Pipeline.
Context {N : NumOps}.
Notation T := (num N).

Lemma ne_mzip (f : T -> T -> T) a b : no_err (mzip f a b). Proof. unfold mzip; ne. Qed.
Lemma ne_mslice (m : mat N) a b : no_err (mslice_cols m a b). Proof. unfold mslice_cols; ne. Qed.
Lemma ne_std (m : mat N) : no_err (std_axis1 m). Proof. unfold std_axis1; ne. Qed.
Lemma ne_conv (f m : mat N) : no_err (perform_valid_2d_conv_with_boundary f m).
Proof. unfold perform_valid_2d_conv_with_boundary; ne. Qed.
Hint Resolve ne_mzip ne_mslice ne_std ne_conv : noerr.
Lemma ne_nsim_map (a b : mat N) : no_err (nsim_map a b). Proof. unfold nsim_map; ne. Qed.
Hint Resolve ne_nsim_map : noerr.
Lemma ne_measure (a b : mat N) : no_err (measure_patch_similarity a b).
Proof. unfold measure_patch_similarity; ne. Qed.
Hint Resolve ne_measure : noerr.
Lemma ne_get_max (l : list T) : no_err (get_max l). Proof. unfold get_max; ne. Qed.
Hint Resolve ne_get_max : noerr.
Lemma ne_next pf n : no_err (next_pow_two pf n). Proof. unfold next_pow_two; ne. Qed.
Hint Resolve ne_next : noerr.
Lemma ne_new_fft pf n : no_err (new_fft (N:=N) pf n). Proof. unfold new_fft; ne. Qed.
Hint Resolve ne_new_fft : noerr.
Lemma ne_inverse (m : FftManager N) l : no_err (inverse_1d m l).
Proof. unfold inverse_1d, time_from_freq_domain; ne. Qed.
Hint Resolve ne_inverse : noerr.
Lemma ne_hilbert_scaling a b : no_err (hilbert_scaling (N:=N) a b).
Proof. unfold hilbert_scaling; ne. Qed.
Hint Resolve ne_hilbert_scaling : noerr.
Lemma ne_hilbert pf (l : list T) : no_err (calculate_hilbert pf l).
Proof. unfold calculate_hilbert; ne. Qed.
Hint Resolve ne_hilbert : noerr.
Lemma ne_env pf (l : list T) : no_err (calculate_upper_env pf l).
Proof. unfold calculate_upper_env; ne. Qed.
Hint Resolve ne_env : noerr.
Lemma ne_max_by (l : list T) : forall a, no_err (max_by_abs a l).
Proof. induction l; simpl; intros; ne. Qed.
Hint Resolve ne_max_by : noerr.
Lemma ne_ifft_prod pf (a b : list T) : no_err (calculate_inverse_fft_pointwise_product pf a b).
Proof.
  unfold calculate_inverse_fft_pointwise_product, calculate_fft_pointwise_product,
    forward_1d_from_points, inverse_1d_conj_sym. ne.
Qed.
Hint Resolve ne_ifft_prod : noerr.
Lemma ne_best_lag pf (a b : list T) : no_err (calculate_best_lag pf a b).
Proof. unfold calculate_best_lag; ne. Qed.
Hint Resolve ne_best_lag : noerr.
Lemma ne_galign pf (a b : AudioSignal N) : no_err (globally_align pf a b).
Proof. unfold globally_align; ne. Qed.
Hint Resolve ne_galign : noerr.
Lemma ne_align_trunc pf (a b : AudioSignal N) : no_err (align_and_truncate pf a b).
Proof. unfold align_and_truncate; ne. Qed.
Hint Resolve ne_align_trunc : noerr.
Lemma ne_slice (s : AudioSignal N) a b : no_err (slice s a b).
Proof. unfold slice; ne. Qed.
Hint Resolve ne_slice : noerr.
Lemma ne_prepare (a b : Spectrogram N) : no_err (prepare_spectrograms_for_comparison a b).
Proof.
  unfold prepare_spectrograms_for_comparison, raise_floor_per_frame, frame_floor, get_minimum. ne.
Qed.
Hint Resolve ne_prepare : noerr.
Lemma ne_vad pf ps w (s : AudioSignal N) win : no_err (vad_patch_indices pf ps w s win).
Proof.
  unfold vad_patch_indices, normalize_signal, get_voice_activity, get_vad_results,
    check_previous_chunks_for_silence. ne.
Qed.
Hint Resolve ne_vad : noerr.
Lemma ne_patches ps (m : mat N) l : no_err (create_patches_from_indices ps m l).
Proof. unfold create_patches_from_indices; ne. Qed.
Hint Resolve ne_patches : noerr.
Lemma ne_calc_loop pf l n h k : no_err (calc_max_loop pf l n h k).
Proof. induction k; cbn [calc_max_loop]; ne. Qed.
Hint Resolve ne_calc_loop : noerr.
Lemma ne_calc_max pf l n p : no_err (calc_max_num_patches pf l n p).
Proof. unfold calc_max_num_patches; ne. Qed.
Hint Resolve ne_calc_max : noerr.
Lemma ne_build_deg (m : mat N) a b : no_err (build_degraded_patch m a b).
Proof. unfold build_degraded_patch; ne. Qed.
Hint Resolve ne_build_deg : noerr.
Lemma ne_backtrace pf rp idx (deg : mat N) bt fd pd k : forall lo acc,
  no_err (backtrace_loop pf rp idx deg bt fd pd k lo acc).
Proof. induction k; cbn [backtrace_loop]; intros; ne. Qed.
Hint Resolve ne_backtrace : noerr.
Lemma ne_dp_cell (s : T) prev sl : no_err (dp_cell s prev sl).
Proof. unfold dp_cell, best_previous; ne. Qed.
Hint Resolve ne_dp_cell : noerr.
Lemma ne_find1 pf sim (nc : Z) (t : list (list T) * list (list Z)) idx k sw :
  (forall s, no_err (sim s)) -> no_err (find_most_optimal_deg_patch pf sim nc t idx k sw).
Proof. intros; unfold find_most_optimal_deg_patch; ne. Qed.
Lemma ne_best_last (l : list T) a b c : no_err (best_last_offset l a b c).
Proof. unfold best_last_offset; ne. Qed.
Hint Resolve ne_best_last : noerr.

(** calc_max_num_patches never returns 0 for a non-empty list *)
Lemma calc_max_loop_pos pf l n h k z : calc_max_loop pf l n h k = Ok z -> 1 <= z <= Z.of_nat k.
Proof.
  induction k; cbn [calc_max_loop]; intros H; [destruct pf; discriminate|].
  inv_do H. inv_do Hk. destruct (n <? v0).
  - apply IHk in Hk0; lia.
  - injection Hk0 as <-; lia.
Qed.
Lemma calc_max_pos pf l n p z : calc_max_num_patches pf l n p = Ok z -> l <> [] ->
  1 <= z <= zlen l.
Proof.
  unfold calc_max_num_patches; destruct l; [congruence|]. intros H _.
  apply calc_max_loop_pos in H. exact H.
Qed.

Lemma find_err pf (rp : list (mat N)) idx deg fd r e :
  find_most_optimal_deg_patches pf rp idx deg fd r = Err e ->
  rp <> [] /\ idx = [] /\ e = SignalsTooDifferent.
Proof.
  unfold find_most_optimal_deg_patches. intros H.
  apply bind_err in H; destruct H as [H|(p0 & H0 & H)]; [exfalso; eapply ne_zget; eauto|].
  assert (rp <> []) by (intros ->; discriminate).
  apply bind_err in H; destruct H as [H|(sw & _ & H)]; [exfalso; eapply ne_i32; eauto|].
  apply bind_err in H; destruct H as [H|(np & Hnp & H)]; [exfalso; eapply ne_calc_max; eauto|].
  destruct (Z.eqb_spec np 0).
  - injection H as <-. repeat split; auto. destruct idx; auto.
    apply calc_max_pos in Hnp; [lia|discriminate].
  - exfalso. revert H. match goal with |- ?x = Err e -> _ => assert (Hne : no_err x) end.
    { ne. apply ne_find1. intros; ne. }
    intros H; eapply Hne; eauto.
Qed.

Lemma ne_apply_band (fb : Filterbank N) l b : no_err (apply_band fb l b).
Proof. unfold apply_band, coeff; ne. Qed.
Lemma ne_frame_column nb (fb : Filterbank N) l : no_err (frame_column nb fb l).
Proof. unfold frame_column, apply_filter; ne. apply ne_apply_band. Qed.
Lemma ne_frame_loop nb l : forall (fb : Filterbank N), no_err (frame_loop nb fb l).
Proof. induction l; cbn [frame_loop]; intros; ne. apply ne_frame_column. Qed.
Lemma ne_sort (l : list T) : no_err (sort_num l). Proof. unfold sort_num; ne. Qed.

(** ** Building a spectrogram depends on the filter bank through min_freq only *)
Lemma build_same nb (f1 f2 : Filterbank N) s w :
  fb_min_freq f1 = fb_min_freq f2 -> build nb f1 s w = build nb f2 s w.
Proof.
  intros E. unfold build. rewrite E. destruct (make_filters _ _ _ _).
  unfold reset_filter_conditions, set_filter_coefficients; cbn [fb_min_freq fb_coeffs].
  rewrite E; auto.
Qed.
Lemma frame_column_min nb (f f' : Filterbank N) l c :
  frame_column nb f l = Ok (f', c) -> fb_min_freq f' = fb_min_freq f.
Proof.
  unfold frame_column, apply_filter; intros H. inv_do H. destruct v as [f1 out].
  inv_do Hv. injection Hk0 as <- <-. destruct (mean_axis1_c _); [|discriminate].
  injection Hk as <- <-. reflexivity.
Qed.
Lemma frame_loop_min nb l : forall (f f' : Filterbank N) c,
  frame_loop nb f l = Ok (f', c) -> fb_min_freq f' = fb_min_freq f.
Proof.
  induction l; cbn [frame_loop]; intros f f' c H; [injection H as <- _; auto|].
  inv_do H; destruct v; inv_do Hk; destruct v. injection Hk0 as <- _.
  apply IHl in Hv0. apply frame_column_min in Hv. congruence.
Qed.
Lemma build_min nb (f : Filterbank N) s w : fb_min_freq (fst (build nb f s w)) = fb_min_freq f.
Proof.
  unfold build. destruct (make_filters _ _ _ _); cbv zeta.
  repeat match goal with |- context [if ?b then _ else _] => destruct b; [reflexivity|] end.
  destruct (frame_loop _ _ _) as [[f' c]| |] eqn:E; try reflexivity.
  apply frame_loop_min in E. exact E.
Qed.

Lemma realign_same pf nb rs ds w (f1 f2 : Filterbank N) old :
  fb_min_freq f1 = fb_min_freq f2 ->
  snd (realign_patch pf nb rs ds w f1 old) = snd (realign_patch pf nb rs ds w f2 old) /\
  fb_min_freq (fst (realign_patch pf nb rs ds w f1 old)) = fb_min_freq f1 /\
  fb_min_freq (fst (realign_patch pf nb rs ds w f2 old)) = fb_min_freq f1.
Proof.
  intros E. unfold realign_patch. destruct (is_lost old); [auto|].
  destruct (slice rs _ _); [|auto|auto].
  destruct (slice ds _ _); [|auto|auto].
  destruct (align_and_truncate pf a a0) as [[[[ra da] lag]|]| |]; [|auto|auto|auto].
  rewrite <- (build_same nb f1 f2 _ _ E).
  pose proof (build_min nb f1 ra w). destruct (build nb f1 ra w) as [fb1 [rspec| |]]; [|auto|auto].
  pose proof (build_min nb fb1 da w). destruct (build nb fb1 da w) as [fb2 dspec].
  cbn [fst snd] in *. repeat split; congruence.
Qed.
Lemma finely_same pf nb rs ds w l : forall (f1 f2 : Filterbank N),
  fb_min_freq f1 = fb_min_freq f2 ->
  snd (finely_align_and_recreate_patches pf nb rs ds w f1 l) =
  snd (finely_align_and_recreate_patches pf nb rs ds w f2 l) /\
  fb_min_freq (fst (finely_align_and_recreate_patches pf nb rs ds w f1 l)) = fb_min_freq f1.
Proof.
  induction l as [|a l IH]; cbn [finely_align_and_recreate_patches]; intros f1 f2 E; [auto|].
  destruct (realign_same pf nb rs ds w f1 f2 a E) as (H1 & H2 & H3).
  destruct (realign_patch pf nb rs ds w f1 a) as [g1 r1].
  destruct (realign_patch pf nb rs ds w f2 a) as [g2 r2].
  cbn [fst snd] in *. subst r2. destruct r1; auto.
  destruct (IH g1 g2) as [I1 I2]; [congruence|].
  destruct (finely_align_and_recreate_patches pf nb rs ds w g1 l).
  destruct (finely_align_and_recreate_patches pf nb rs ds w g2 l).
  cbn [fst snd] in *. subst. split; auto; congruence.
Qed.
Lemma calculate_same pf nb rs ds (f1 f2 : Filterbank N) w c m sw :
  fb_min_freq f1 = fb_min_freq f2 ->
  snd (calculate_similarity pf nb rs ds f1 w c m sw) =
  snd (calculate_similarity pf nb rs ds f2 w c m sw) /\
  fb_min_freq (fst (calculate_similarity pf nb rs ds f1 w c m sw)) = fb_min_freq f1.
Proof.
  intros E. unfold calculate_similarity. cbv zeta. rewrite <- (build_same nb f1 f2 _ _ E).
  pose proof (build_min nb f1 rs w). destruct (build nb f1 rs w) as [fb1 [rspec| |]]; [|auto|auto].
  cbn [fst snd] in *.
  match goal with |- context [build nb fb1 ?s w] =>
    pose proof (build_min nb fb1 s w); destruct (build nb fb1 s w) as [fb2 [dspec| |]] end.
  2,3: cbn [fst snd] in *; split; congruence.
  cbn [fst snd] in *.
  match goal with |- context [match ?x with Ok _ => _ | Err _ => _ | Panic _ => _ end] =>
    destruct x as [info| |] end.
  2,3: cbn [fst snd] in *; split; congruence.
  match goal with |- context [finely_align_and_recreate_patches pf nb rs ?d w fb2 ?i] =>
    destruct (finely_same pf nb rs d w i fb2 fb2 eq_refl) as [_ F2];
    destruct (finely_align_and_recreate_patches pf nb rs d w fb2 i) as [fb3 r3] end.
  cbn [fst snd] in *. split; [auto|congruence].
Qed.

(** Two managers of the same configuration: everything but the filter bank's state agrees. *)
Definition same_config (m1 m2 : Manager N) : Prop :=
  mg_search_window m1 = mg_search_window m2 /\ mg_creator m1 = mg_creator m2 /\
  mg_mapper m1 = mg_mapper m2 /\
  fb_min_freq (mg_filterbank m1) = fb_min_freq (mg_filterbank m2).

Lemma compute_same pf nb (m1 m2 : Manager N) rs ds : same_config m1 m2 ->
  snd (compute_results pf nb m1 rs ds) = snd (compute_results pf nb m2 rs ds) /\
  same_config (fst (compute_results pf nb m1 rs ds)) m1.
Proof.
  intros (E1 & E2 & E3 & E4). unfold compute_results. rewrite <- E1, <- E2, <- E3.
  destruct (globally_align pf rs ds) as [[[al lag]|]| |]; try (repeat split; auto; fail).
  match goal with |- context [calculate_similarity pf nb rs al (mg_filterbank m1) ?w ?c ?mp ?sw] =>
    destruct (calculate_same pf nb rs al (mg_filterbank m1) (mg_filterbank m2) w c mp sw E4) as [F1 F2];
    destruct (calculate_similarity pf nb rs al (mg_filterbank m1) w c mp sw);
    destruct (calculate_similarity pf nb rs al (mg_filterbank m2) w c mp sw) end.
  cbn [fst snd] in *. split; auto. repeat split; auto.
Qed.
Lemma run_same pf nb files (m1 m2 : Manager N) a b : same_config m1 m2 ->
  snd (run pf nb files m1 a b) = snd (run pf nb files m2 a b) /\
  same_config (fst (run pf nb files m1 a b)) m1.
Proof.
  intros E. unfold run.
  destruct (load_as_mono (files a)); try (repeat split; auto; fail).
  destruct (load_as_mono (files b)); try (repeat split; auto; fail).
  destruct (validate_input_audio _ _); try (repeat split; auto; fail).
  apply compute_same; auto.
Qed.

(** ** Which error values a comparison can return *)
Lemma build_err nb (f : Filterbank N) s w f' e : build nb f s w = (f', Err e) ->
  sig_len s < win_size w /\ e = TooFewSamples (sig_len s) (win_size w).
Proof.
  unfold build. destruct (make_filters _ _ _ _); cbv zeta. unfold sig_len.
  destruct (Z.ltb_spec (zlen (data_matrix s)) (win_size w)).
  - intros [= _ <-]. auto.
  - destruct (_ =? 0); [discriminate|].
    match goal with |- context [frame_loop ?a ?b ?c] =>
      pose proof (ne_frame_loop a c b); destruct (frame_loop a b c) as [[f1 c1]| |] end.
    + intros [= _ E]. exfalso. apply bind_err in E. destruct E as [E|(? & _ & E)]; [|discriminate].
      eapply ne_sort; eauto.
    + intros [= _ E]. exfalso; eapply H0; eauto.
    + discriminate.
Qed.

Lemma realign_err pf nb rs ds w (f f' : Filterbank N) old e :
  realign_patch pf nb rs ds w f old = (f', Err e) ->
  e = FailedToAlignSignals \/ exists n, n < win_size w /\ e = TooFewSamples n (win_size w).
Proof.
  unfold realign_patch. destruct (is_lost old); [discriminate|].
  destruct (slice rs _ _) eqn:E1; [|exfalso; eapply ne_slice; eauto|discriminate].
  destruct (slice ds _ _) eqn:E2; [|exfalso; eapply ne_slice; eauto|discriminate].
  destruct (align_and_truncate pf a a0) as [[[[ra da] lag]|]| |] eqn:E3;
    [|intros [= _ <-]; auto|exfalso; eapply ne_align_trunc; eauto|discriminate].
  destruct (build nb f ra w) as [fb1 [rspec| |]] eqn:E4; [| |discriminate].
  - destruct (build nb fb1 da w) as [fb2 [dspec| |]] eqn:E5; [| |discriminate].
    + intros [= _ H]. cbn [bind] in H. exfalso.
      apply bind_err in H; destruct H as [H|(? & _ & H)]; [eapply ne_prepare; eauto|].
      apply bind_err in H; destruct H as [H|(? & _ & H)]; [eapply ne_measure; eauto|discriminate].
    + intros [= _ <-]. apply build_err in E5. destruct E5; eauto.
  - intros [= _ <-]. apply build_err in E4. destruct E4; eauto.
Qed.
Lemma finely_err pf nb rs ds w l e : forall (f f' : Filterbank N),
  finely_align_and_recreate_patches pf nb rs ds w f l = (f', Err e) ->
  e = FailedToAlignSignals \/ exists n, n < win_size w /\ e = TooFewSamples n (win_size w).
Proof.
  induction l as [|a l IH]; cbn [finely_align_and_recreate_patches]; intros f f'; [discriminate|].
  destruct (realign_patch pf nb rs ds w f a) as [g r] eqn:E. destruct r; [| |discriminate].
  - destruct (finely_align_and_recreate_patches pf nb rs ds w g l) as [g2 r2] eqn:E2.
    intros [= _ H]. apply bind_err in H. destruct H as [H|(? & _ & H)]; [|discriminate]. subst; eauto.
  - intros [= _ <-]. eapply realign_err; eauto.
Qed.

Lemma ne_means (l : list (PatchSim N)) : no_err (calc_per_patch_mean_freq_band_means l).
Proof.
  unfold calc_per_patch_mean_freq_band_means, num_bands_of; ne.
  generalize (freq_band_means a0); intros k. revert k. induction s; intros [|b k]; simpl; ne.
Qed.
Lemma ne_add_into (a b : list T) : no_err (add_into a b).
Proof. revert b. induction a; intros [|b k]; simpl; ne. Qed.
Lemma ne_energy (l : list (PatchSim N)) : no_err (calc_per_patch_mean_freq_band_degraded_energy l).
Proof.
  unfold calc_per_patch_mean_freq_band_degraded_energy, num_bands_of; ne. apply ne_add_into.
Qed.
Lemma ne_add_contr pf fc : forall (a b c : list T), no_err (add_contribution pf fc a b c).
Proof. induction a; intros [|b k] [|c k']; simpl; ne. Qed.
Lemma ne_stds pf (l : list (PatchSim N)) fd : no_err (calc_per_patch_mean_freq_band_std_devs pf l fd).
Proof.
  unfold calc_per_patch_mean_freq_band_std_devs, num_bands_of; ne.
  apply ne_means. apply ne_add_contr.
Qed.
Lemma ne_predict (m : Mapper N) l : no_err (predict_quality m l).
Proof. unfold predict_quality, svr_predict; ne. Qed.

Lemma image_grid_ne pf a b c : no_err (image_grid pf a b c).
Proof. unfold image_grid; ne. Qed.
Lemma create_indices_err pf c (m : mat N) s w e :
  create_ref_patch_indices pf c m s w = Err e ->
  exists ps, c = ImagePatchCreator ps /\ Z.of_nat (mcols m) < ps + ps / 2 /\
    e = ReferenceSpectrogramTooSmall (Z.of_nat (mcols m)) (ps - ps / 2).
Proof.
  unfold create_ref_patch_indices; destruct c.
  - intros H; exfalso; eapply ne_vad; eauto.
  - unfold image_patch_indices. destruct (Z.ltb_spec (Z.of_nat (mcols m)) (patch_size + patch_size / 2)).
    + intros [= <-]. eauto.
    + destruct (_ =? 0); [discriminate|]. intros E; exfalso; eapply image_grid_ne; eauto.
Qed.

(** Error values of a comparison of two loaded signals. *)
Lemma calculate_err pf nb rs ds (f f' : Filterbank N) w c m sw e :
  calculate_similarity pf nb rs ds f w c m sw = (f', Err e) ->
  e = FailedToAlignSignals \/
  (exists n, n < win_size w /\ e = TooFewSamples n (win_size w)) \/
  (exists n ps, c = ImagePatchCreator ps /\ n < ps + ps / 2 /\
     e = ReferenceSpectrogramTooSmall n (ps - ps / 2)).
Proof.
  unfold calculate_similarity; cbv zeta.
  destruct (build nb f rs w) as [fb1 [rspec| |]] eqn:E1; [| |discriminate].
  2: { intros [= _ <-]; apply build_err in E1; destruct E1; eauto 6. }
  match goal with |- context [build nb fb1 ?s w] =>
    destruct (build nb fb1 s w) as [fb2 [dspec| |]] eqn:E2 end.
  3: discriminate.
  2: { intros [= _ <-]; apply build_err in E2; destruct E2; eauto 6. }
  match goal with |- context [match ?x with Ok _ => _ | Err _ => _ | Panic _ => _ end] =>
    destruct x as [info|e1|] eqn:E3 end.
  - match goal with |- context [finely_align_and_recreate_patches pf nb rs ?d w fb2 ?i] =>
      destruct (finely_align_and_recreate_patches pf nb rs d w fb2 i) as [fb3 r3] eqn:E4 end.
    intros [= _ H]. apply bind_err in H. destruct H as [H|(i2 & _ & H)].
    { subst r3. apply finely_err in E4. tauto. }
    exfalso. revert H. match goal with |- ?x = Err e -> _ => assert (Hn : no_err x) end.
    { pose proof ne_means; pose proof ne_stds; pose proof ne_energy; pose proof ne_predict. ne. }
    intros ?; eapply Hn; eauto.
  - intros [= _ <-].
    apply bind_err in E3. destruct E3 as [E|([r1 d1] & _ & E)]; [exfalso; eapply ne_prepare; eauto|].
    apply bind_err in E. destruct E as [E|(idx & Hidx & E)].
    { apply create_indices_err in E. destruct E as (ps & -> & H & ->). eauto 8. }
    apply bind_err in E. destruct E as [E|(ps & Hps & E)]; [exfalso; eapply ne_patches; eauto|].
    apply find_err in E. destruct E as (Hne & -> & _).
    unfold create_patches_from_indices in Hps. cbn [mapM] in Hps. injection Hps as <-. congruence.
  - discriminate.
Qed.

(** ** Shapes *)
Definition sim_shape (nb : nat) (p : PatchSim N) : Prop :=
  List.length (freq_band_means p) = nb /\ List.length (freq_band_stddevs p) = nb /\
  List.length (freq_band_deg_energy p) = nb.

Lemma nsim_map_shape (a b m : mat N) : nsim_map a b = Ok m ->
  mat_wf m /\ (mrows a <> 0 -> mcols a <> 0 -> mrows m = mrows a)%nat /\ mrows a = mrows b.
Proof.
  unfold nsim_map; intros H.
  repeat (inv_do H; match goal with H2 : _ = Ok m |- _ => rename H2 into H end).
  repeat match goal with H : mzip _ _ _ = Ok _ |- _ => apply mzip_ok in H; destruct H as (? & ? & ?) end.
  subst. split; [apply mbuild_wf|].
  repeat match goal with H : perform_valid_2d_conv_with_boundary _ _ = Ok _ |- _ =>
    unfold perform_valid_2d_conv_with_boundary in H; 
    destruct ((_ <=? _)%nat && (_ <=? _)%nat) in H; [injection H as H|discriminate]; subst end.
  cbn [mbuild mmap mrows mcols nsim_window add_matrix_boundary copy_matrix_within_padding] in *.
  split; intros; lia.
Qed.
Lemma nsim_rows (a b m : mat N) : nsim_map a b = Ok m ->
  mrows m = mrows a.
Proof.
  unfold nsim_map; intros H.
  repeat (inv_do H; match goal with H2 : _ = Ok m |- _ => rename H2 into H end).
  repeat match goal with H : mzip _ _ _ = Ok _ |- _ => apply mzip_ok in H; destruct H as (? & ? & ?) end.
  subst.
  repeat match goal with H : perform_valid_2d_conv_with_boundary _ _ = Ok _ |- _ =>
    unfold perform_valid_2d_conv_with_boundary in H; 
    destruct ((_ <=? _)%nat && (_ <=? _)%nat) eqn:? in H; [injection H as H|discriminate]; subst end.
  cbn [mbuild mmap mrows mcols nsim_window add_matrix_boundary copy_matrix_within_padding] in *.
  lia.
Qed.
Lemma measure_shape (a b : mat N) p : mat_wf b ->
  measure_patch_similarity a b = Ok p -> sim_shape (mrows a) p.
Proof.
  intros Wb. unfold measure_patch_similarity; intros H. inv_do H.
  destruct (mean_axis1_c b) eqn:E1; [|discriminate]. cbn [bind] in Hk.
  destruct (mean_axis1_f v) eqn:E2; [|discriminate]. cbn [bind] in Hk.
  inv_do Hk. destruct (nd_mean l0); [|discriminate]. injection Hk0 as <-.
  pose proof (nsim_map_shape _ _ _ Hv) as (W & _ & R). pose proof (nsim_rows _ _ _ Hv).
  unfold sim_shape, new_patch_sim; cbn [freq_band_means freq_band_stddevs freq_band_deg_energy].
  rewrite (mean_axis1_c_len _ _ Wb E1), (mean_axis1_f_len _ _ W E2), (std_axis1_len _ _ W Hv0).
  intuition congruence.
Qed.
Lemma build_deg_shape (m p : mat N) a b : build_degraded_patch m a b = Ok p ->
  mat_wf p /\ mrows p = mrows m.
Proof.
  unfold build_degraded_patch; intros H. inv_do H. apply mslice_ok in Hv. destruct Hv as (_ & _ & ->).
  destruct (_ <? _); injection Hk as <-; split; auto using mbuild_wf.
Qed.
Lemma set_times_shape nb p l o r fd pd : sim_shape nb p -> sim_shape nb (set_times p l o r fd pd).
Proof.
  intros (H1 & H2 & H3); unfold sim_shape, set_times;
  cbn [freq_band_means freq_band_stddevs freq_band_deg_energy].
  destruct l; rewrite ?repeat_length; auto.
Qed.
Lemma backtrace_shape pf rp idx deg bt fd pd nb k : forall lo acc out,
  Forall (fun m => mrows m = nb) rp -> Forall (sim_shape nb) acc ->
  backtrace_loop (N:=N) pf rp idx deg bt fd pd k lo acc = Ok out ->
  Forall (sim_shape nb) out /\ List.length out = (k + List.length acc)%nat.
Proof.
  induction k; cbn [backtrace_loop]; intros lo acc out Hrp Hacc H; [injection H as <-; auto|].
  do 7 (inv_do H; match goal with H2 : _ = Ok out |- _ => rename H2 into H end).
  apply IHk in H; auto.
  - destruct H; split; auto. cbn [List.length] in *; lia.
  - constructor; auto. apply set_times_shape.
    apply build_deg_shape in Hv1. apply measure_shape in Hv2; [|tauto].
    rewrite Forall_forall in Hrp. rewrite <- (Hrp v); auto.
    apply zget_ok in Hv. destruct Hv as [_ Hv]. eapply nth_error_In; eauto.
Qed.
Lemma find_shape pf rp idx (deg : mat N) fd r nb out :
  Forall (fun m => mrows m = nb) rp ->
  find_most_optimal_deg_patches pf rp idx deg fd r = Ok out -> List.length rp = List.length idx ->
  Forall (sim_shape nb) out /\ out <> [].
Proof.
  intros Hrp H Hlen. unfold find_most_optimal_deg_patches in H.
  do 3 (inv_do H; match goal with H2 : _ = Ok out |- _ => rename H2 into H end).
  destruct (Z.eqb_spec v1 0); [discriminate|].
  do 2 (inv_do H; match goal with H2 : _ = Ok out |- _ => rename H2 into H end).
  destruct v3 as [dp bt].
  do 6 (inv_do H; match goal with H2 : _ = Ok out |- _ => rename H2 into H end).
  apply backtrace_shape with (nb := nb) in H; auto. destruct H as [H1 H2]. split; auto.
  apply calc_max_pos in Hv1.
  - intros ->. cbn in H2. lia.
  - intros ->. destruct rp; [|discriminate]. discriminate.
Qed.

Lemma insert_length (x : T) l : List.length (insert_num x l) = S (List.length l).
Proof. induction l; simpl; auto. destruct (nleb N x a); simpl; auto. Qed.
Lemma sort_length (l k : list T) : sort_num l = Ok k -> List.length k = List.length l.
Proof.
  unfold sort_num. destruct (_ && _); [discriminate|]. intros [= <-].
  induction l; simpl; auto. rewrite insert_length, IHl; auto.
Qed.
Lemma build_shape nb (f f' : Filterbank N) s w sp : build nb f s w = (f', Ok sp) ->
  mat_wf (sp_data sp) /\ mrows (sp_data sp) = nb /\ List.length (center_freq_bands sp) = nb.
Proof.
  unfold build, make_filters; cbv zeta.
  repeat (match goal with |- context [if ?b then _ else _] => destruct b; [discriminate|] end).
  match goal with |- context [frame_loop ?a ?b ?c] => destruct (frame_loop a b c) as [[f1 c1]| |] end;
    try discriminate.
  intros [= _ H]. inv_do H. injection Hk as <-. cbn [sp_data center_freq_bands].
  split; [apply mbuild_wf|]. split; auto. apply sort_length in Hv. rewrite Hv.
  unfold calculate_uniform_center_freqs. rewrite map_length, seq_length; auto.
Qed.
Lemma prepare_shape (a b a' b' : Spectrogram N) :
  prepare_spectrograms_for_comparison a b = Ok (a', b') ->
  (mat_wf (sp_data a') /\ mrows (sp_data a') = mrows (sp_data a) /\ mcols (sp_data a') = mcols (sp_data a)
   /\ center_freq_bands a' = center_freq_bands a) /\
  (mat_wf (sp_data b') /\ mrows (sp_data b') = mrows (sp_data b) /\ mcols (sp_data b') = mcols (sp_data b)
   /\ center_freq_bands b' = center_freq_bands b).
Proof.
  unfold prepare_spectrograms_for_comparison, raise_floor_per_frame; cbv zeta; intros H.
  inv_do H. inv_do Hv. injection Hk0 as <-. inv_do Hk. inv_do Hk0. injection Hk as <- <-.
  unfold subtract_floor, with_data, mmap; cbn [sp_data mbuild mrows mcols center_freq_bands raise_floor convert_to_db with_data mmap].
  repeat split; auto; try apply mbuild_wf.
Qed.

Lemma choose_shape nb old new l d1 d2 : sim_shape nb old -> sim_shape nb new ->
  sim_shape nb (choose_result (N:=N) old new l d1 d2).
Proof. unfold choose_result; intros. destruct (nltb _ _ _); auto. Qed.
Lemma realign_shape pf nb rs ds w (f f' : Filterbank N) old p : sim_shape nb old ->
  realign_patch pf nb rs ds w f old = (f', Ok p) -> sim_shape nb p.
Proof.
  intros Hs. unfold realign_patch. destruct (is_lost old); [intros [= _ <-]; auto|].
  destruct (slice rs _ _) eqn:E1; [|discriminate|discriminate].
  destruct (slice ds _ _) eqn:E2; [|discriminate|discriminate].
  destruct (align_and_truncate pf a a0) as [[[[ra da] lag]|]| |] eqn:E3; try discriminate.
  destruct (build nb f ra w) as [fb1 [rspec| |]] eqn:E4; [|discriminate|discriminate].
  destruct (build nb fb1 da w) as [fb2 [dspec| |]] eqn:E5; [|discriminate|discriminate].
  intros [= _ H]. cbn [bind] in H. inv_do H. inv_do Hk. injection Hk0 as <-.
  apply choose_shape; auto. destruct v as [r1 d1].
  apply prepare_shape in Hv. destruct Hv as [(W1 & R1 & _) (W2 & R2 & _)].
  apply measure_shape in Hv0; auto. cbn [fst snd] in *.
  apply build_shape in E4. destruct E4 as (_ & E & _). rewrite R1, E in Hv0. auto.
Qed.
Lemma finely_shape pf nb rs ds w l : forall (f f' : Filterbank N) out,
  Forall (sim_shape nb) l ->
  finely_align_and_recreate_patches pf nb rs ds w f l = (f', Ok out) ->
  Forall (sim_shape nb) out /\ List.length out = List.length l.
Proof.
  induction l as [|a l IH]; cbn [finely_align_and_recreate_patches]; intros f f' out HF.
  - intros [= _ <-]; auto.
  - inversion HF; subst.
    destruct (realign_patch pf nb rs ds w f a) as [g [p| |]] eqn:E; [|discriminate|discriminate].
    destruct (finely_align_and_recreate_patches pf nb rs ds w g l) as [g2 r2] eqn:E2.
    intros [= _ H]. inv_do H. injection Hk as <-. subst r2.
    apply IH in E2; auto. destruct E2. split; [constructor; auto|simpl; auto].
    eapply realign_shape; eauto.
Qed.

Lemma add_into_len (a b c : list T) : add_into a b = Ok c -> List.length c = List.length a.
Proof.
  revert b c; induction a; intros [|x b] c; simpl; intros H; try (injection H as <-; auto); try discriminate.
  inv_do H. injection Hk as <-. simpl; erewrite IHa; eauto.
Qed.
Lemma means_len l nb (out : list T) : Forall (sim_shape nb) l ->
  calc_per_patch_mean_freq_band_means l = Ok out -> List.length out = nb.
Proof.
  intros HF H. unfold calc_per_patch_mean_freq_band_means in H. inv_do H. inv_do Hk.
  injection Hk0 as <-. rewrite map_length.
  unfold num_bands_of in Hv. inv_do Hv. injection Hk as <-.
  destruct l as [|p l]; [discriminate|]. injection Hv1 as <-. inversion HF; subst.
  pattern v0. eapply foldM_inv; [| |exact Hv0].
  - rewrite repeat_length; apply H1.
  - intros s a s' _ Hs E. apply add_into_len in E. congruence.
Qed.
Lemma energy_len l nb (out : list T) : Forall (sim_shape nb) l ->
  calc_per_patch_mean_freq_band_degraded_energy l = Ok out -> List.length out = nb.
Proof.
  intros HF H. unfold calc_per_patch_mean_freq_band_degraded_energy in H. inv_do H. inv_do Hk.
  injection Hk0 as <-. rewrite map_length.
  unfold num_bands_of in Hv. inv_do Hv. injection Hk as <-.
  destruct l as [|p l]; [discriminate|]. injection Hv1 as <-. inversion HF; subst.
  pattern v0. eapply foldM_inv; [| |exact Hv0].
  - rewrite repeat_length; apply H1.
  - intros s a s' _ Hs E. apply add_into_len in E. congruence.
Qed.
Lemma add_contr_len pf fc : forall (a b c d : list T), add_contribution pf fc a b c = Ok d ->
  List.length d = List.length a.
Proof.
  induction a; intros b c d; simpl; intros H; [injection H as <-; auto|].
  destruct b; [discriminate|]. destruct c; [discriminate|].
  inv_do H. inv_do Hk. injection Hk0 as <-. simpl; erewrite IHa; eauto.
Qed.
Lemma stds_len pf l fd nb (out : list T) : Forall (sim_shape nb) l ->
  calc_per_patch_mean_freq_band_std_devs pf l fd = Ok out -> List.length out = nb.
Proof.
  intros HF H. unfold calc_per_patch_mean_freq_band_std_devs in H. inv_do H. inv_do Hk. inv_do Hk0.
  destruct v1 as [c t]. injection Hk as <-. rewrite map_length, combine_length.
  rewrite (means_len _ _ _ HF Hv).
  unfold num_bands_of in Hv0. inv_do Hv0. injection Hk as <-.
  destruct l as [|p l]; [discriminate|]. injection Hv2 as <-. inversion HF; subst.
  assert (List.length c = nb); [|lia].
  change c with (fst (c, t)). pattern (c, t). eapply foldM_inv; [| |exact Hv1].
  - cbn [fst]. rewrite repeat_length; apply H1.
  - intros [s n] a [s' n'] _ Hs E. cbn [fst] in *. inv_do E. inv_do Hk. injection Hk0 as <- _.
    match goal with H : add_contribution _ _ _ _ _ = Ok _ |- _ => apply add_contr_len in H end. congruence.
Qed.

Lemma patches_rows ps (m : mat N) idx l : create_patches_from_indices ps m idx = Ok l ->
  Forall (fun p => mrows p = mrows m) l /\ List.length l = List.length idx.
Proof.
  unfold create_patches_from_indices; intros H. split; [|eapply mapM_length; eauto].
  apply mapM_ok in H. induction H; constructor; auto.
  apply mslice_ok in H. destruct H as (_ & _ & ->). auto.
Qed.

(** The result of a successful comparison: shapes, and how the score is obtained. *)
Lemma calculate_ok pf nb rs ds (f f' : Filterbank N) w c m sw r :
  calculate_similarity pf nb rs ds f w c m sw = (f', Ok r) ->
  List.length (fvnsim r) = nb /\ List.length (fstdnsim r) = nb /\
  List.length (fvdegenergy r) = nb /\ List.length (res_center_freq_bands r) = nb /\
  Forall (sim_shape nb) (patch_sims r) /\ patch_sims r <> [] /\
  nd_mean (fvnsim r) = Some (vnsim r) /\
  (exists q, predict_quality m (fvnsim r) = Ok q /\
     moslqo r = alter_for_similarity_extremes (vnsim r) q) /\
  calc_per_patch_mean_freq_band_means (patch_sims r) = Ok (fvnsim r) /\
  calc_per_patch_mean_freq_band_degraded_energy (patch_sims r) = Ok (fvdegenergy r) /\
  calc_per_patch_mean_freq_band_std_devs pf (patch_sims r)
    (calculate_frame_duration (nmul N (nofZ N (win_size w)) (win_overlap w)) (sample_rate rs))
    = Ok (fstdnsim r).
Proof.
  unfold calculate_similarity; cbv zeta.
  destruct (build nb f rs w) as [fb1 [rspec| |]] eqn:E1; [|discriminate|discriminate].
  match goal with |- context [build nb fb1 ?s w] =>
    destruct (build nb fb1 s w) as [fb2 [dspec| |]] eqn:E2 end; [|discriminate|discriminate].
  match goal with |- context [match ?x with Ok _ => _ | Err _ => _ | Panic _ => _ end] =>
    destruct x as [info|e1|] eqn:E3 end; [|discriminate|discriminate].
  match goal with |- context [finely_align_and_recreate_patches pf nb rs ?d w fb2 ?i] =>
    destruct (finely_align_and_recreate_patches pf nb rs d w fb2 i) as [fb3 r3] eqn:E4 end.
  intros [= _ H].
  do 5 (inv_do H; match goal with H2 : _ = Ok r |- _ => rename H2 into H end).
  destruct (nd_mean v0) eqn:Em; [|discriminate]. cbn [bind] in H. injection H as <-.
  cbn [moslqo vnsim fvnsim fstdnsim fvdegenergy res_center_freq_bands patch_sims].
  subst r3.
  apply build_shape in E1. destruct E1 as (W1 & R1 & C1).
  inv_do E3. destruct v4 as [rs' ds']. inv_do Hk. inv_do Hk0.
  apply prepare_shape in Hv. destruct Hv as [(Wr & Rr & _) _].
  apply patches_rows in Hv5. destruct Hv5 as [Fp Lp]. rewrite Rr, R1 in Fp.
  apply find_shape with (nb := nb) in Hk; auto. destruct Hk as [F1 F2].
  apply finely_shape in E4; auto. destruct E4 as [F3 F4].
  repeat split; auto.
  - eapply means_len; eauto.
  - eapply stds_len; eauto.
  - eapply energy_len; eauto.
  - intros ->. destruct info; [auto|discriminate].
  - eauto.
Qed.
End Pipeline.
