(** Comparisons that cannot succeed. *)
From Coq Require Import Reals Lra.
From Flocq Require Import Core IEEE754.BinarySingleNaN.
From Verif Require Import Base Num Mat F64 M_Audio M_Align M_Spectro M_Patch M_Nsim M_Selector M_Visqol.
From Verif Require Import P_Base P_Mat P_Manager P_F64 P_Patch P_Spectro P_Vad Spec.

Section Compare.
Context {N : NumOps}.

Lemma scale_len (r d : AudioSignal N) : sig_len (scale_to_match_sound_pressure_level r d) = sig_len d.
Proof. unfold sig_len, scale_to_match_sound_pressure_level. cbn [data_matrix]. apply zlen_map. Qed.

(** What patch creation and matching see of the two signals. *)
Lemma compare_panics pf nb (rs ds : AudioSignal N) fb w creator mapper sw :
  (0 < hop_size w)%Z -> (win_size w <= sig_len rs)%Z -> (win_size w <= sig_len ds)%Z ->
  (forall r d : mat N, Z.of_nat (mcols r) = (1 + (sig_len rs - win_size w) / hop_size w)%Z ->
     Z.of_nat (mcols d) = (1 + (sig_len ds - win_size w) / hop_size w)%Z ->
     is_panic (do idx <- create_ref_patch_indices pf creator r rs w;
               do ps <- create_patches_from_indices (creator_patch_size creator) r idx;
               find_most_optimal_deg_patches pf ps idx d
                 (calculate_frame_duration (nmul N (nofZ N (win_size w)) (win_overlap w)) (sample_rate rs))
                 (wrap_i32 sw))) ->
  is_panic (snd (calculate_similarity pf nb rs ds fb w creator mapper sw)).
Proof.
  intros Hh Hr Hd HP. unfold calculate_similarity. cbv zeta.
  destruct (build nb fb rs w) as [fb1 [rspec|e|p]] eqn:E1.
  2:{ apply build_err in E1. lia. }
  2:{ eexists; reflexivity. }
  match goal with |- context [build nb fb1 ?s w] => destruct (build nb fb1 s w) as [fb2 [dspec|e|p]] eqn:E2 end.
  2:{ apply build_err in E2. rewrite scale_len in E2. lia. }
  2:{ eexists; reflexivity. }
  apply build_cols in E1; auto. apply build_cols in E2; auto.
  match type of E2 with _ = (1 + (?a - _) / _)%Z => change a with (sig_len (scale_to_match_sound_pressure_level rs ds)) in E2 end.
  rewrite scale_len in E2.
  match goal with |- context [match ?c with Ok _ => _ | Err _ => _ | Panic _ => _ end] => assert (C : is_panic c) end.
  { apply panic_bind'; [apply ne_prepare|]. intros [r1 d1] Hp. apply prepare_shape in Hp.
    destruct Hp as ((_ & _ & C1 & _) & (_ & _ & C2 & _)).
    apply HP; [rewrite C1; exact E1|rewrite C2; exact E2]. }
  destruct C as (p & C). rewrite C. eexists; reflexivity.
Qed.

(** If patch creation yields one patch starting in the first half patch. *)
Lemma C23_compare pf nb (rs ds : AudioSignal N) fb w creator mapper sw i0 :
  (0 < hop_size w)%Z -> (1 <= win_size w <= sig_len rs)%Z -> (win_size w <= sig_len ds < 2 ^ 62)%Z ->
  (0 <= i0 < creator_patch_size creator / 2)%Z -> (creator_patch_size creator < 2 ^ 62)%Z ->
  (forall r : mat N, Z.of_nat (mcols r) = (1 + (sig_len rs - win_size w) / hop_size w)%Z ->
     create_ref_patch_indices pf creator r rs w = Ok [i0]) ->
  is_panic (snd (calculate_similarity pf nb rs ds fb w creator mapper sw)).
Proof.
  intros Hh Hr Hd Hi Hps HC. apply compare_panics; try lia. intros r d Er Ed.
  rewrite (HC r Er). cbn [bind]. unfold create_patches_from_indices. cbn [mapM].
  apply panic_bind'.
  { intros e C. apply bind_err in C. destruct C as [C|(a & _ & C)].
    - unfold mslice_cols in C. destruct (_ && _); discriminate.
    - cbn [bind] in C. discriminate. }
  intros ps Hp. inv_do Hp. cbn [bind] in Hk. injection Hk as <-.
  assert (M : Z.of_nat (mcols v) = creator_patch_size creator).
  { unfold mslice_cols in Hv. destruct (_ && _); [|discriminate]. injection Hv as <-. cbn [mbuild mcols].
    assert (0 < creator_patch_size creator)%Z; [|lia].
    destruct (Z.lt_ge_cases 0 (creator_patch_size creator)); auto.
    assert (creator_patch_size creator / 2 <= 0)%Z by (apply Z.div_le_upper_bound; lia). lia. }
  apply C23_single; rewrite ?M; auto.
  assert ((sig_len ds - win_size w) / hop_size w <= sig_len ds - win_size w)%Z.
  { apply Z.div_le_upper_bound; [lia|]. nia. }
  lia.
Qed.

Lemma image_single pf ps w : (2 <= ps)%Z -> (ps + ps / 2 <= w <= 2 * ps + ps / 2)%Z ->
  image_patch_indices pf ps w = Ok [(ps / 2 - 1)%Z].
Proof.
  intros Hp Hw. assert (1 <= ps / 2)%Z by (apply Z.div_le_lower_bound; lia).
  unfold image_patch_indices. destruct (Z.ltb_spec w (ps + ps / 2)); [lia|].
  destruct (Z.eqb_spec ps 0); [lia|]. unfold image_grid.
  assert (E : (((if ps / 2 <? w - ps then w - ps else ps / 2 + 1) - ps / 2 + ps - 1) / ps = 1)%Z).
  { destruct (Z.ltb_spec (ps / 2) (w - ps)); symmetry.
    - apply Z.div_unique with (r := (w - ps - ps / 2 - 1)%Z); lia.
    - apply Z.div_unique with (r := 0%Z); lia. }
  rewrite E. change (zrange 0 1) with [0%Z]. cbn [mapM]. rewrite usub_ok by lia. cbn [bind].
  do 2 f_equal. lia.
Qed.
Lemma C23_image pf nb (rs ds : AudioSignal N) fb w ps mapper sw :
  (2 <= ps < 2 ^ 62)%Z -> (0 < hop_size w)%Z -> (1 <= win_size w <= sig_len rs)%Z ->
  (win_size w <= sig_len ds < 2 ^ 62)%Z ->
  (ps + ps / 2 <= 1 + (sig_len rs - win_size w) / hop_size w <= 2 * ps + ps / 2)%Z ->
  is_panic (snd (calculate_similarity pf nb rs ds fb w (ImagePatchCreator ps) mapper sw)).
Proof.
  intros Hp Hh Hr Hd Hc. assert (1 <= ps / 2)%Z by (apply Z.div_le_lower_bound; lia).
  apply C23_compare with (i0 := (ps / 2 - 1)%Z); auto; cbn [creator_patch_size]; try lia.
  intros r Er. cbn [create_ref_patch_indices]. rewrite Er. apply image_single; lia.
Qed.
End Compare.

Section Compare64.
Variable lm : Libm.
Let N := F64 lm.
Lemma C22_compare pf nb (rs ds : AudioSignal N) fb w ps mapper sw :
  (2 <= ps <= 2 ^ 16)%Z -> (0 < hop_size w)%Z -> (win_size w <= sig_len rs)%Z -> (win_size w <= sig_len ds)%Z ->
  (1 + (sig_len rs - win_size w) / hop_size w < ps / 2 - 1 + ps)%Z ->
  is_panic (snd (calculate_similarity (N:=N) pf nb rs ds fb w (VadPatchCreator ps) mapper sw)).
Proof.
  intros Hp Hh Hr Hd Hc. apply compare_panics; auto. intros r d Er Ed.
  assert (HH : (Z.of_nat (mcols r) < ps / 2 - 1 + ps)%Z) by (rewrite Er; exact Hc).
  pose proof (C22_creator lm pf ps r rs w Hp HH) as (p & C).
  apply bind_panic in C. destruct C as [C|(idx & C1 & C2)].
  - exists p. fold N in C. rewrite C. reflexivity.
  - exists p. fold N in C1, C2. rewrite C1. cbn [bind creator_patch_size]. rewrite C2. reflexivity.
Qed.

(** No degraded signal gives a result. *)
Lemma C22_never pf nb (m : Manager N) (rs ds : AudioSignal N) ps :
  mg_creator m = VadPatchCreator ps -> (2 <= ps <= 2 ^ 16)%Z ->
  let w := new_window (N:=N) (sample_rate rs) OVERLAP WINDOW_DURATION in
  (0 < hop_size w)%Z -> (sig_len rs < win_size w \/
  1 + (sig_len rs - win_size w) / hop_size w < ps / 2 - 1 + ps)%Z ->
  forall r, snd (compute_results (N:=N) pf nb m rs ds) <> Ok r.
Proof.
  intros Hm Hp w Hh Hs r. unfold compute_results. fold w.
  destruct (globally_align pf rs ds) as [[[al lag]|]| |]; try discriminate.
  destruct (calculate_similarity _ _ _ _ _ _ _ _ _) as [fb x] eqn:E. cbn [snd].
  assert (E2 : snd (calculate_similarity (N:=N) pf nb rs al (mg_filterbank m) w (mg_creator m) (mg_mapper m)
     (mg_search_window m)) = x) by (rewrite E; auto). clear E.
  rewrite Hm in E2.
  destruct (Z.lt_ge_cases (sig_len rs) (win_size w)) as [L|L].
  - unfold calculate_similarity in E2. cbv zeta in E2.
    pose proof (C30_too_few nb (mg_filterbank m) rs w) as B. apply proj2 in B. specialize (B L).
    destruct (build nb (mg_filterbank m) rs w) as [fb1 b1]. cbn [snd] in B. subst b1. cbn [snd] in E2.
    rewrite <- E2. discriminate.
  - destruct Hs as [Hs|Hs]; [lia|].
    destruct (Z.lt_ge_cases (sig_len al) (win_size w)) as [L2|L2].
    + unfold calculate_similarity in E2. cbv zeta in E2.
      destruct (build nb (mg_filterbank m) rs w) as [fb1 [sp|e|p]].
      * pose proof (C30_too_few nb fb1 (scale_to_match_sound_pressure_level rs al) w) as B. apply proj2 in B.
        rewrite scale_len in B. specialize (B L2).
        destruct (build nb fb1 (scale_to_match_sound_pressure_level rs al) w) as [fb2 b2]. cbn [snd] in B. subst b2.
        cbn [snd] in E2. rewrite <- E2. discriminate.
      * cbn [snd] in E2. rewrite <- E2. discriminate.
      * cbn [snd] in E2. rewrite <- E2. discriminate.
    + destruct (C22_compare pf nb rs al (mg_filterbank m) w ps (mg_mapper m) (mg_search_window m)) as (p & P); auto.
      rewrite <- E2. fold N in P. rewrite P. discriminate.
Qed.

(** The analysis window of the manager: the hop is a quarter of the window. *)
Lemma hop_quarter rate : let w := new_window (N:=N) rate OVERLAP WINDOW_DURATION in
  (0 <= win_size w <= 2 ^ 53)%Z -> hop_size w = (win_size w / 4)%Z.
Proof.
  cbv zeta. set (w := new_window _ _ _). intros Hw. unfold hop_size.
  assert (O : win_overlap w = (OVERLAP (N:=N))) by reflexivity. rewrite O. clear O.
  assert (Q : is_finite (OVERLAP (N:=N) : f64) = true /\ B2R (OVERLAP (N:=N) : f64) = (1 / 4)%R).
  { split; [vm_compute; reflexivity|].
    assert (E : B2SF (OVERLAP (N:=N) : f64) = SpecFloat.S754_finite false 4503599627370496 (-54)) by (vm_compute; reflexivity).
    rewrite <- SF2R_B2SF, E. cbn [SF2R]. unfold F2R. cbn [Fnum Fexp cond_Zopp].
    change (bpow radix2 (-54)) with (/ IZR (2 ^ 54))%R. 
    replace (IZR (2 ^ 54)) with (4 * 4503599627370496)%R by (rewrite <- mult_IZR; f_equal; vm_compute; auto). field. }
  destruct Q as [Q1 Q2]. destruct (ofZ_exact (win_size w)) as [F E]; [lia|].
  assert (G : generic_format radix2 fexp64 (IZR (win_size w) * (1 / 4))).
  { destruct (Z.eq_dec (win_size w) 0) as [->|NZ].
    - replace (0 * (1 / 4))%R with 0%R by ring. apply generic_format_0.
    - replace (1 / 4)%R with (bpow radix2 (-2)) by (compute; lra).
      destruct (Z.eq_dec (win_size w) (2 ^ 53)) as [->|NE].
      + change (2 ^ 53)%Z with (Zpower radix2 53). rewrite IZR_Zpower by lia. rewrite <- bpow_plus.
        apply generic_format_bpow. unfold SpecFloat.fexp, SpecFloat.emin; lia.
      + apply (generic_format_FLT radix2 (-1074) 53). exists (Float radix2 (win_size w) (-2)).
        * unfold F2R; cbn [Fnum Fexp]; auto.
        * cbn [Fnum]. change (Zpower radix2 53) with (2 ^ 53)%Z. lia.
        * cbn [Fexp]. lia. }
  assert (P : is_finite (Bmult mode_NE (f64_ofZ (win_size w)) (OVERLAP (N:=N) : f64)) = true /\
     B2R (Bmult mode_NE (f64_ofZ (win_size w)) (OVERLAP (N:=N) : f64)) = (IZR (win_size w) * (1 / 4))%R).
  { assert (BD : (Rabs (IZR (win_size w) * (1 / 4)) < big)%R).
    { apply Rle_lt_trans with (Rabs (IZR (win_size w))).
      - rewrite Rabs_mult. rewrite (Rabs_pos_eq (1 / 4)) by lra. pose proof (Rabs_pos (IZR (win_size w))). lra.
      - rewrite <- E. apply Rabs_def1; apply finite_lt_big. }
    destruct (Bmult_fin (f64_ofZ (win_size w)) (OVERLAP (N:=N) : f64) F Q1) as [A B].
    - rewrite E, Q2, rnd_id by auto. auto.
    - split; auto. rewrite B, E, Q2. apply rnd_id; auto. }
  destruct P as [P1 P2]. etransitivity; [exact (cast_fin 0 (2 ^ 64 - 1) _ P1)|].
  assert (T : Ztrunc (B2R (Bmult mode_NE (f64_ofZ (win_size w)) (OVERLAP (N:=N) : f64))) = (win_size w / 4)%Z).
  { rewrite P2. rewrite Ztrunc_floor by (assert (0 <= IZR (win_size w))%R by (apply IZR_le; lia); lra).
    replace (IZR (win_size w) * (1 / 4))%R with (IZR (win_size w) / IZR 4)%R by field.
    apply Zfloor_div. lia. }
  rewrite T.
  assert (0 <= win_size w / 4)%Z by (apply Z.div_pos; lia).
  assert (win_size w / 4 <= win_size w)%Z by (apply Z.div_le_upper_bound; lia).
  lia.
Qed.
End Compare64.

Lemma C24_never {N : NumOps} pf nb (rs ds : AudioSignal N) fb w creator mapper sw :
  snd (calculate_similarity pf nb rs ds fb w creator mapper sw) <> Err SignalsTooDifferent.
Proof.
  intros H. destruct (calculate_similarity pf nb rs ds fb w creator mapper sw) as [f r] eqn:E.
  cbn [snd] in H. subst r. apply calculate_err in E.
  destruct E as [E|[(n & _ & E)|(n & ps & _ & _ & E)]]; discriminate.
Qed.
