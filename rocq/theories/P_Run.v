(** Proofs about run: memory, errors, shapes. *)
From Coq Require Import Znumtheory.
From Verif Require Import Base Num Mat M_Audio M_Align M_Spectro M_Patch M_Nsim M_Selector M_Visqol.
From Verif Require Import P_Base P_Mat P_Manager Spec.

Section Run.
Context {N : NumOps}.
Notation T := (num N).

Lemma same_refl (m : Manager N) : same_config m m.
Proof. repeat split; auto. Qed.
Lemma same_trans (a b c : Manager N) : same_config a b -> same_config b c -> same_config a c.
Proof. unfold same_config. intuition congruence. Qed.
Lemma same_sym (a b : Manager N) : same_config a b -> same_config b a.
Proof. unfold same_config. intuition congruence. Qed.

Lemma after_same pf nb calls : forall (m : Manager N), same_config (after_calls pf nb m calls) m.
Proof.
  induction calls as [|c l IH]; intros m; [apply same_refl|].
  unfold after_calls. cbn [fold_left].
  eapply same_trans; [apply IH|].
  apply (run_same pf nb (fst (fst c)) m m (snd (fst c)) (snd c)), same_refl.
Qed.

Lemma C05_mem pf nb (m : Manager N) calls files a b :
  snd (run pf nb files (after_calls pf nb m calls) a b) = snd (run pf nb files m a b).
Proof. apply run_same, after_same. Qed.

Lemma mapM_some (l : list Z) :
  mapM (fun o => match o with Some z => Ok z | None => Panic PExpect end) (map Some l) = Ok l.
Proof. induction l; simpl; auto. rewrite IHl; auto. Qed.

Lemma load_readable w rate : readable16 w rate ->
  exists s : AudioSignal N, load_as_mono w = Ok s /\ sample_rate s = rate.
Proof.
  intros (c & v & -> & Hc & Hd). unfold load_as_mono, wav_open. 
  change (negb (16 =? 16)) with false. cbv iota. rewrite mapM_some. cbn [bind].
  unfold extract_multichannel. cbn [num_channels wav_samples]. cbv zeta.
  replace (c =? 0) with false by lia.
  unfold normalize_int16_to_double. rewrite !zlen_map.
  replace (zlen v mod c =? 0) with true.
  2:{ symmetry. apply Z.eqb_eq. apply Z.mod_divide; auto; lia. }
  cbn [bind]. eexists; split; reflexivity.
Qed.

(** A load error is a wav error or a wrong bit depth. *)
Lemma load_err w e : load_as_mono (N:=N) w = Err e ->
  (exists c, w = WavBad c /\ e = WavError c) \/
  (exists c r b l, w = WavOk c r b l /\ b <> 16 /\ e = InvalidBitsPerSample b).
Proof.
  unfold load_as_mono, wav_open. destruct w; cbn [bind].
  - intros [= <-]. eauto.
  - destruct (Z.eqb_spec bits 16); cbn [negb bind].
    + intros H. exfalso. revert H. apply no_err_bind.
      * apply no_err_bind; [|intros; apply no_err_ok]. apply no_err_mapM. intros [z|]; auto using no_err_ok, no_err_panic.
      * intros f. apply no_err_bind; [|intros; apply no_err_ok].
        unfold extract_multichannel. destruct (_ =? 0); [destruct (normalize_int16_to_double _); apply no_err_panic|].
        destruct (_ =? 0); auto using no_err_ok, no_err_panic.
    + intros [= <-]. right. do 4 eexists. eauto.
Qed.

Lemma compute_err pf nb (m m' : Manager N) rs ds e :
  compute_results pf nb m rs ds = (m', Err e) ->
  let win := win_size (new_window (N:=N) (sample_rate rs) OVERLAP WINDOW_DURATION) in
  e = FailedToAlignSignals \/
  (exists n, n < win /\ e = TooFewSamples n win) \/
  (exists n ps, mg_creator m = ImagePatchCreator ps /\ n < ps + ps / 2 /\
     e = ReferenceSpectrogramTooSmall n (ps - ps / 2)).
Proof.
  unfold compute_results. destruct (globally_align pf rs ds) as [[[al lag]|]| |] eqn:E.
  - destruct (calculate_similarity _ _ _ _ _ _ _ _ _) as [f' x] eqn:E2. intros [= _ ->].
    apply calculate_err in E2. exact E2.
  - intros [= _ <-]. auto.
  - exfalso. eapply ne_galign; eauto.
  - discriminate.
Qed.

Lemma C06_rates pf nb files (m : Manager N) a b ra rb x y :
  readable16 (files a) ra -> readable16 (files b) rb ->
  snd (run pf nb files m a b) = Err (DifferentSampleRates x y) <-> (ra <> rb /\ x = ra /\ y = rb).
Proof.
  intros Ha Hb. destruct (load_readable _ _ Ha) as (rs & E1 & E2).
  destruct (load_readable _ _ Hb) as (ds & E3 & E4).
  unfold run. rewrite E1, E3. unfold validate_input_audio. rewrite E2, E4.
  destruct (Z.eqb_spec ra rb); cbn [negb].
  - split; [|intuition congruence].
    destruct (compute_results pf nb m rs ds) as [m' [r|e0|p]] eqn:E; cbn [snd]; try discriminate.
    intros [= ->]. apply compute_err in E. cbv zeta in E.
    destruct E as [E|[(n & _ & E)|(n & ps & _ & _ & E)]]; discriminate.
  - cbn [snd]. split; [intros [= <- <-]; auto|intros (_ & -> & ->); auto].
Qed.

Lemma C07_ref_bits pf nb files (m : Manager N) a b c r bits l :
  files a = WavOk c r bits l -> bits <> 16 ->
  snd (run pf nb files m a b) = Err (InvalidBitsPerSample bits).
Proof.
  intros E H. unfold run, load_as_mono, wav_open. rewrite E.
  destruct (Z.eqb_spec bits 16); [congruence|]. reflexivity.
Qed.
Lemma C07_ref_bad pf nb files (m : Manager N) a b code :
  files a = WavBad code -> snd (run pf nb files m a b) = Err (WavError code).
Proof. intros E. unfold run, load_as_mono, wav_open. rewrite E. reflexivity. Qed.
Lemma C07_deg_bits pf nb files (m : Manager N) a b ra c r bits l :
  readable16 (files a) ra -> files b = WavOk c r bits l -> bits <> 16 ->
  snd (run pf nb files m a b) = Err (InvalidBitsPerSample bits).
Proof.
  intros Ha E H. destruct (load_readable _ _ Ha) as (rs & E1 & _). unfold run. rewrite E1, E.
  unfold load_as_mono, wav_open. destruct (Z.eqb_spec bits 16); [congruence|]. reflexivity.
Qed.
Lemma C07_deg_bad pf nb files (m : Manager N) a b ra code :
  readable16 (files a) ra -> files b = WavBad code ->
  snd (run pf nb files m a b) = Err (WavError code).
Proof.
  intros Ha E. destruct (load_readable _ _ Ha) as (rs & E1 & _). unfold run. rewrite E1, E. reflexivity.
Qed.

(** A sample that hound cannot decode is unwrapped by [expect]. *)
Lemma damaged_open l : In None l ->
  mapM (fun o : option Z => match o with Some z => Ok z | None => Panic PExpect end) l = Panic PExpect.
Proof.
  induction l as [|[z|] l IH]; intros H; [destruct H| |reflexivity].
  cbn [mapM]. destruct H as [H|H]; [discriminate|]. rewrite (IH H). reflexivity.
Qed.
Lemma damaged_load c r l : In None l ->
  load_as_mono (N:=N) (WavOk c r 16 l) = Panic PExpect.
Proof.
  intros H. unfold load_as_mono, wav_open.
  destruct (Z.eqb_spec 16 16); [|congruence]. cbn [negb]. rewrite (damaged_open l H). reflexivity.
Qed.
Lemma C07_ref_damaged pf nb files (m : Manager N) a b c r l :
  files a = WavOk c r 16 l -> In None l -> snd (run pf nb files m a b) = Panic PExpect.
Proof. intros E H. unfold run. rewrite E, (damaged_load c r l H). reflexivity. Qed.
Lemma C07_deg_damaged pf nb files (m : Manager N) a b ra c r l :
  readable16 (files a) ra -> files b = WavOk c r 16 l -> In None l ->
  snd (run pf nb files m a b) = Panic PExpect.
Proof.
  intros Ha E H. destruct (load_readable _ _ Ha) as (rs & E1 & _).
  unfold run. rewrite E1, E, (damaged_load c r l H). reflexivity.
Qed.

Lemma after_creator pf nb calls (m : Manager N) : mg_creator (after_calls pf nb m calls) = mg_creator m.
Proof. apply after_same. Qed.

(** All error values run can return. *)
Lemma C49_errors pf nb v w (m : Manager N) calls files a b e :
  new_manager nb v w = Ok m ->
  snd (run pf nb files (after_calls pf nb m calls) a b) = Err e ->
  match e with
  | WavError c => files a = WavBad c \/ files b = WavBad c
  | InvalidBitsPerSample n => n <> 16 /\
      ((exists c r l, files a = WavOk c r n l) \/ (exists c r l, files b = WavOk c r n l))
  | DifferentSampleRates x y => x <> y /\
      (exists c l, files a = WavOk c x 16 l) /\ (exists c l, files b = WavOk c y 16 l)
  | FailedToAlignSignals => True
  | TooFewSamples found needed => found < needed
  | ReferenceSpectrogramTooSmall n needed =>
      (exists model, v = Fullband model) /\ n < 30 /\ needed = 10
  | SignalsTooDifferent | FailedToComputeVad | CsvError _ => False
  end.
Proof.
  intros Hm H. set (m1 := after_calls pf nb m calls) in *.
  assert (Hc : mg_creator m1 = mg_creator m) by apply after_creator. clearbody m1.
  assert (LR : forall w (s : AudioSignal N), load_as_mono w = Ok s -> exists c l, w = WavOk c (sample_rate s) 16 l).
  { intros w0 s Hl. unfold load_as_mono in Hl. inv_do Hl. inv_do Hk. injection Hk0 as <-.
    cbn [sample_rate]. unfold wav_open in Hv. destruct w0; [discriminate|].
    destruct (Z.eqb_spec bits 16); [|discriminate]. cbn [negb] in Hv. inv_do Hv. injection Hk as <-.
    subst. cbn. eauto. }
  unfold run in H.
  destruct (load_as_mono (files a)) as [rs|ea|p] eqn:Ea; cbn [snd] in H; [| |discriminate].
  2:{ injection H as <-. apply load_err in Ea.
      destruct Ea as [(c & E & ->)|(c & r & bb & l & E & Hb & ->)]; auto. split; auto. left; eauto. }
  destruct (load_as_mono (files b)) as [ds|eb|p] eqn:Eb; cbn [snd] in H; [| |discriminate].
  2:{ injection H as <-. apply load_err in Eb.
      destruct Eb as [(c & E & ->)|(c & r & bb & l & E & Hb & ->)]; auto. split; auto. right; eauto. }
  unfold validate_input_audio in H. destruct (Z.eqb_spec (sample_rate rs) (sample_rate ds)); cbn [negb] in H.
  - destruct (compute_results pf nb m1 rs ds) as [m2 x] eqn:E. cbn [snd] in H. subst x.
    apply compute_err in E. cbv zeta in E.
    destruct E as [->|[(n & Hn & ->)|(n & ps & Hps & Hn & ->)]]; auto.
    rewrite Hc in Hps. unfold new_manager in Hm. destruct v as [u|[s|]]; cbn [bind] in Hm; try discriminate.
    + injection Hm as <-. discriminate.
    + injection Hm as <-. cbn in Hps. injection Hps as <-.
      unfold PATCH_SIZE_SPEECH in *. change (20 / 2) with 10 in *. repeat split; eauto; lia.
  - cbn [snd] in H. injection H as <-. repeat split; auto.
Qed.

Lemma run_ok' pf nb files (m m' : Manager N) a b r :
  run pf nb files m a b = (m', Ok r) ->
  exists rs ds al lag f',
    load_as_mono (files a) = Ok rs /\ load_as_mono (files b) = Ok ds /\
    sample_rate rs = sample_rate ds /\
    globally_align pf rs ds = Ok (Some (al, lag)) /\
    calculate_similarity pf nb rs al (mg_filterbank m)
      (new_window (sample_rate rs) OVERLAP WINDOW_DURATION)
      (mg_creator m) (mg_mapper m) (mg_search_window m) = (f', Ok r).
Proof.
  unfold run. destruct (load_as_mono (files a)) as [rs| |]; try discriminate.
  destruct (load_as_mono (files b)) as [ds| |]; try discriminate.
  unfold validate_input_audio. destruct (Z.eqb_spec (sample_rate rs) (sample_rate ds)); simpl; try discriminate.
  unfold compute_results. destruct (globally_align pf rs ds) as [[[al lag]|]| |] eqn:E; try discriminate.
  destruct (calculate_similarity _ _ _ _ _ _ _ _ _) as [f' x] eqn:E2.
  intros [= _ ->]. exists rs, ds, al, lag, f'. auto.
Qed.

Lemma C39_shape pf nb files (m m' : Manager N) a b r :
  run pf nb files m a b = (m', Ok r) ->
  List.length (fvnsim r) = nb /\ List.length (fstdnsim r) = nb /\
  List.length (fvdegenergy r) = nb /\ List.length (res_center_freq_bands r) = nb /\
  patch_sims r <> [] /\
  Forall (fun p => List.length (freq_band_means p) = nb /\ List.length (freq_band_stddevs p) = nb /\
                   List.length (freq_band_deg_energy p) = nb) (patch_sims r).
Proof.
  intros H. apply run_ok' in H. destruct H as (rs & ds & al & lag & f' & _ & _ & _ & _ & H).
  apply calculate_ok in H. destruct H as (H1 & H2 & H3 & H4 & H5 & H6 & _). repeat split; auto.
Qed.
End Run.
