(** C59: the outcome of a comparison from the lengths, in exact arithmetic. *)
From Coq Require Import Reals Lra Lia Sorting.Sorted.
From Flocq Require Import Core.
From Verif Require Import Base Num Mat RNum M_Audio M_Align M_Spectro M_Patch M_Nsim M_Selector M_Visqol.
From Verif Require Import P_Base P_Mat P_R P_Level P_Audio P_Manager P_Score P_Patch Spec Spec2 Spec3 Spec5 P_Conv P_Nsim P_Spectro P_Compare P_Prep P_Dp P_Dp2 P_Dp3 P_Times P_Agg P_Run P_Xcorr P_Env P_Self P_Slice P_Same P_Same2 P_Total P_Total2 P_Total3.
Open Scope R_scope.

(** ** Global alignment of recordings of any length *)
Lemma align_any pf (rs ds : AudioSignal RN) : (1 <= sig_len rs <= 2 ^ 62)%Z -> (1 <= sig_len ds <= 2 ^ 62)%Z ->
  exists al lag, globally_align pf rs ds = Ok (Some (al, lag)) /\ sample_rate al = sample_rate ds /\
    (sig_len ds - sig_len rs / 2 <= sig_len al <= sig_len ds + sig_len rs / 2)%Z.
Proof.
  intros HL HD. assert (HL2 : (0 <= sig_len rs / 2)%Z) by (apply Z.div_pos; lia).
  destruct (Z_lt_le_dec (Z.max (sig_len rs) (sig_len ds)) 9) as [H9|H9].
  - unfold globally_align.
    destruct (C15_all pf (data_matrix rs) HL) as (_ & e1 & _ & E1 & L1 & _). destruct (C15_all pf (data_matrix ds) HD) as (_ & e2 & _ & E2 & L2 & _).
    assert (Z1 : (@zlen R e1 = sig_len rs)%Z) by exact (f_equal Z.of_nat L1).
    assert (Z2 : (@zlen R e2 = sig_len ds)%Z) by exact (f_equal Z.of_nat L2).
    rewrite E1. cbn [bind]. rewrite E2. cbn [bind].
    assert (HG : (1 <= longest e1 e2 <= 8)%Z) by (unfold longest; change (num RN) with R in *; lia).
    destruct (C14_all pf e1 e2 HG) as (lag & E3 & B). rewrite E3. cbn [bind].
    assert (LG : longest e1 e2 = Z.max (sig_len rs) (sig_len ds)) by (unfold longest; change (num RN) with R in *; lia).
    rewrite LG in *.
    destruct (Z.eqb_spec lag 0); [eexists; eexists; split; [reflexivity|split; [auto|lia]]|].
    destruct (Z.ltb_spec (sig_len rs / 2) (Z.abs lag)); [eexists; eexists; split; [reflexivity|split; [auto|lia]]|]. cbn [orb].
    destruct (Z.ltb_spec lag 0).
    + assert (Hk : (Z.abs lag <= sig_len ds)%Z).
      { destruct B as [[_ B]|[B _]]; [|lia]. assert (sig_len rs / 2 * 2 <= sig_len rs)%Z by (rewrite Z.mul_comm; apply Z.mul_div_le; lia). lia. }
      change (sig_len ds) with (zlen (data_matrix ds)) in Hk |- *. rewrite zslice_in by lia. cbn [bind]. eexists; eexists. split; [reflexivity|]. split; [reflexivity|].
      unfold sig_len. cbn [data_matrix]. rewrite cut_len by lia. change (zlen (data_matrix rs)) with (sig_len rs) in *. lia.
    + cbn [bind]. eexists; eexists. split; [reflexivity|]. split; [reflexivity|]. unfold sig_len in *. cbn [data_matrix].
      assert (PL := @pad_len R 0 (data_matrix ds) lag ltac:(lia)). change (nofZ RN 0) with 0. change (num RN) with R in *. lia.
  - destruct (align_total pf rs ds HL HD H9) as (al & lag & EA & RA & AL). exists al, lag. split; [auto|]. split; [auto|].
    destruct AL as [[-> _]|(k & Hk & [[E _]|(Hk2 & E & _)])].
    + lia.
    + assert (X := @pad_len R 0 (data_matrix ds) k ltac:(lia)). assert (Y : sig_len al = (k + sig_len ds)%Z) by (unfold sig_len at 1; rewrite E; exact X). lia.
    + assert (X := @skip_len R (data_matrix ds) k). change (@zlen R (data_matrix ds)) with (sig_len ds) in X. specialize (X ltac:(lia)). assert (Y : sig_len al = (sig_len ds - k)%Z) by (unfold sig_len at 1; rewrite E; exact X). lia.
Qed.
Lemma align_empty pf (rs ds : AudioSignal RN) : (sig_len rs <= 2 ^ 62)%Z -> sig_len rs = 0%Z \/ sig_len ds = 0%Z ->
  globally_align pf rs ds = Ok None.
Proof.
  assert (E : forall s : AudioSignal RN, sig_len s = 0%Z -> calculate_upper_env pf (data_matrix s) = Ok None).
  { intros s H. unfold sig_len, zlen in H. destruct (data_matrix s); [reflexivity|cbn in H; lia]. }
  intros HL H. unfold globally_align. destruct (Z.eq_dec (sig_len rs) 0) as [Z0|Z0].
  - rewrite (E _ Z0). reflexivity.
  - destruct H as [H|H]; [lia|]. assert (H1 : (1 <= sig_len rs <= 2 ^ 62)%Z) by (pose proof (zlen_pos (data_matrix rs)); unfold sig_len in *; lia).
    destruct (C15_all pf (data_matrix rs) H1) as (_ & e1 & _ & E1 & _). rewrite E1. cbn [bind]. rewrite (E _ H). reflexivity.
Qed.

(** ** Matching from the start frames *)
Lemma sim_panics pf nb (rs al : AudioSignal RN) (f : Filterbank RN) w cr mapper ws hop idx :
  let ps := creator_patch_size cr in
  let c := (1 + (sig_len rs - 4 * hop) / hop)%Z in
  let d := (1 + (sig_len al - 4 * hop) / hop)%Z in
  win_size w = (4 * hop)%Z -> hop_size w = hop -> (1 <= hop)%Z ->
  (ps = 20 \/ ps = 30)%Z -> (0 <= ws <= 2 ^ 20)%Z ->
  (4 * hop <= sig_len rs <= 2 ^ 31)%Z -> (4 * hop <= sig_len al <= 2 ^ 31)%Z -> (c + ws * ps < 2 ^ 31)%Z ->
  (forall m : mat RN, Z.of_nat (mcols m) = c -> create_ref_patch_indices pf cr m rs w = Ok idx) ->
  (forall i, In i idx -> (0 <= i)%Z /\ (i + ps <= c)%Z) -> nth 0 idx 0%Z = (ps / 2 - 1)%Z ->
  (List.length idx = 1)%nat \/ ((2 <= List.length idx)%nat /\ (d < nth 1 idx 0 - ps / 2)%Z) \/ (exists i, In i idx /\ (d < i - ws * ps)%Z) ->
  is_panic (snd (calculate_similarity pf nb rs al f w cr mapper ws)).
Proof.
  intros ps c d HW HH Hhop Hps Hws HL HA Hcw HI Hin H0 H.
  assert (Hd : (1 <= d <= 2 ^ 31)%Z). { unfold d. pose proof (Z.div_pos (sig_len al - 4 * hop) hop ltac:(lia) ltac:(lia)). pose proof (Z.div_le_upper_bound (sig_len al - 4 * hop) hop (sig_len al - 4) ltac:(lia) ltac:(nia)). lia. }
  apply compare_panics; try lia. rewrite HW, HH. fold c d. intros r y Er Ey.
  rewrite (HI r Er). cbn [bind]. fold ps.
  destruct (patches_total ps r idx) as (pts & PT); [lia| |].
  { intros i Ii. specialize (Hin i Ii). lia. }
  rewrite PT. cbn [bind]. rewrite wrap_i32_id by lia.
  assert (SO : StronglySorted Z.lt idx). { apply (idx_sorted pf cr r rs w idx); [fold ps; lia|]. apply HI. lia. }
  assert (HIn := sorted_nth _ SO).
  destruct (patches_self ps _ _ _ ltac:(lia) PT) as [PL PS].
  assert (NE : idx <> []). { destruct H as [H|[[H _]|(i & H & _)]]; intros ->; cbn in H; try lia; auto. }
  destruct idx as [|i0 rest]; [tauto|]. cbn [nth] in H0. destruct pts as [|p0 pts]; [cbn in PL; lia|].
  assert (P0 : Z.of_nat (mcols p0) = ps).
  { destruct (PS 0%nat ltac:(cbn; lia)) as (_ & _ & E). cbn [nth_error] in E. injection E as ->. cbn [patch_at mbuild mcols]. apply Z2Nat.id. lia. }
  assert (Hrest : forall s, In s rest -> (ps / 2 <= s)%Z).
  { intros s Hs. inversion SO as [|? ? _ FA]. subst. rewrite Forall_forall in FA. specialize (FA s Hs). lia. }
  assert (LOW : (forall s, In s rest -> (d < s - ps / 2)%Z) -> is_panic (find_most_optimal_deg_patches (N:=RN) pf (p0 :: pts) (i0 :: rest) y
     (calculate_frame_duration (nmul RN (nofZ RN (4 * hop)) (win_overlap w)) (sample_rate rs)) ws)).
  { intros HS. apply find_panic_count. intros fp. destruct (Z.eq_dec ps fp) as [E|E].
    - left. rewrite <- E, Ey. apply calc_first_low; try lia.
      intros s Hs. split; auto.
    - right. intros p E'. injection E' as <-. lia. }
  destruct H as [H|[[H2 H]|(i & Hi & H)]].
  - apply LOW. destruct rest; [|cbn in H; lia]. intros s [].
  - apply LOW. destruct rest as [|s1 rest]; [cbn in H2; lia|]. cbn [nth] in H. intros s [<-|Hs]; [lia|].
    inversion SO as [|? ? SO1 _]. inversion SO1 as [|? ? _ FA]. subst. rewrite Forall_forall in FA. specialize (FA s Hs). lia.
  - apply In_nth_error in Hi as (k & Hk). destruct (Hin i) as [I1 I2]; [eapply nth_error_In; eauto|].
    apply (C43_short pf (p0 :: pts) (i0 :: rest) y _ ws p0 k i); rewrite ?P0; auto; try lia.
    rewrite PL. apply nth_error_Some. congruence.
Qed.

(** ** From a run to the similarity *)
Lemma build_few nb (f : Filterbank RN) s w : (sig_len s < win_size w)%Z -> snd (build nb f s w) = Err (TooFewSamples (sig_len s) (win_size w)).
Proof. intros H. unfold build. destruct (make_filters _ _ _ _). destruct (Z.ltb_spec (zlen (data_matrix s)) (win_size w)); [reflexivity|unfold sig_len in H; lia]. Qed.
Lemma sim_few pf nb (rs al : AudioSignal RN) (f : Filterbank RN) w cr mapper ws : (1 <= win_size w)%Z -> (0 < hop_size w)%Z ->
  (sig_len rs < win_size w -> snd (calculate_similarity pf nb rs al f w cr mapper ws) = Err (TooFewSamples (sig_len rs) (win_size w)))%Z /\
  (win_size w <= sig_len rs -> sig_len al < win_size w -> snd (calculate_similarity pf nb rs al f w cr mapper ws) = Err (TooFewSamples (sig_len al) (win_size w)))%Z.
Proof.
  intros Hw Hh. unfold calculate_similarity. cbv zeta. split.
  - intros H. pose proof (build_few nb f rs w H) as E. destruct (build nb f rs w) as [f1 r]. cbn [snd] in E. subst r. reflexivity.
  - intros H H2. destruct (build_total nb f rs w) as (f1 & rspec & E1 & _); auto. rewrite E1.
    set (sc := scale_to_match_sound_pressure_level rs al). assert (Sl : sig_len sc = sig_len al) by apply scale_len.
    pose proof (build_few nb f1 sc w ltac:(lia)) as E. destruct (build nb f1 sc w) as [f2 r]. cbn [snd] in E. subst r. rewrite Sl. reflexivity.
Qed.

(** ** Start frames of the voice activity grid *)
Lemma chunk_one_first {N : NumOps} fuel p (l : list (num N)) : (1 <= fuel)%nat -> (0 < List.length l)%nat ->
  exists cs, chunks fuel p l = firstn p l :: cs.
Proof. intros Hf Hl. destruct fuel as [|f]; [lia|]. destruct l as [|x t]; [cbn in Hl; lia|]. cbn [chunks]. eauto. Qed.
Lemma vad_first pf ps w (s : AudioSignal RN) win : let fp := (ps / 2 - 1)%Z in let h := hop_size win in
  (2 <= ps <= 2 ^ 16)%Z -> (1 <= h)%Z -> (w * h <= sig_len s)%Z -> (sig_len s <= 2 ^ 44)%Z ->
  (fp + ps <= w)%Z -> exists rest, vad_patch_indices pf ps w s win = Ok (fp :: rest).
Proof.
  intros fp h Hps Hh Hw Hs Hpw.
  assert (HL1 : (1 <= sig_len s)%Z) by (assert (1 <= ps / 2)%Z by (apply Z.div_le_lower_bound; lia); unfold fp in *; nia).
  assert (NE : data_matrix s <> []) by (unfold sig_len, zlen in HL1; destruct (data_matrix s); [cbn in HL1; lia|discriminate]).
  destruct (R_num_max (data_matrix s) NE) as (peak & HP).
  assert (P1 : (1 <= ps / 2)%Z) by (apply Z.div_le_lower_bound; lia).
  assert (W1 : (w <= 2 ^ 44)%Z) by nia. assert (H1 : (h <= 2 ^ 44)%Z) by nia.
  unfold vad_patch_indices. cbv zeta. fold h. unfold normalize_signal, get_max. change (num RN) with R in *. rewrite HP. cbn [bind].
  rewrite umul_ok by (unfold usize_mod; nia). cbn [bind]. rewrite usub_ok by lia. cbn [bind]. fold fp.
  rewrite usub_ok by lia. cbn [bind]. unfold udiv. destruct (Z.eqb_spec ps 0) as [|_]; [lia|]. cbn [bind].
  set (pc := ((w - fp) / ps)%Z).
  assert (Pc : (1 <= pc)%Z) by (apply Z.div_le_lower_bound; lia).
  assert (Pm : (ps * pc <= w - fp)%Z) by (apply Z.mul_div_le; lia).
  assert (F0 : (0 <= fp)%Z) by (unfold fp; lia).
  assert (B : (pc * (ps * h) <= (w - fp) * h)%Z) by (replace (pc * (ps * h))%Z with (ps * pc * h)%Z by ring; apply Z.mul_le_mono_nonneg_r; lia).
  assert (FH : (fp * 1 <= fp * h)%Z) by (apply Z.mul_le_mono_nonneg_l; lia).
  assert (B2 : (fp + pc * (ps * h) <= sig_len s)%Z) by (rewrite Z.mul_sub_distr_r in B; lia).
  assert (PW : (pc <= 2 ^ 44)%Z) by (assert (1 * pc <= ps * pc)%Z by (apply Z.mul_le_mono_nonneg_r; lia); lia).
  assert (PH : (0 <= pc * (ps * h))%Z) by (apply Z.mul_nonneg_nonneg; [lia|apply Z.mul_nonneg_nonneg; lia]).
  assert (PP : (1 * ps <= pc * ps)%Z) by (apply Z.mul_le_mono_nonneg_r; lia).
  rewrite umul_ok by (unfold usize_mod; lia). cbn [bind].
  unfold alloc8 at 1. destruct (Z.leb_spec (8 * pc) (2 ^ 47)); [|lia]. cbn [bind].
  unfold get_voice_activity. rewrite uadd_ok by (unfold usize_mod; lia). cbn [bind].
  set (norm := map (fun x : R => x / peak) (data_matrix s)).
  assert (Ln : zlen norm = sig_len s) by (unfold norm; rewrite zlen_map; reflexivity).
  match goal with |- context [zslice ?l ?a ?b] => change (zslice l a b) with (zslice norm a b) end.
  rewrite zslice_in by (rewrite ?Ln; lia). cbn [bind].
  unfold alloc8. destruct (Z.leb_spec (8 * h) (2 ^ 47)); [|lia]. cbn [bind].
  set (patch := firstn (Z.to_nat (fp + pc * (ps * h) - fp)) (skipn (Z.to_nat fp) norm)).
  set (n := Z.to_nat (pc * ps)). set (L := Z.to_nat h).
  assert (LP : List.length patch = (n * L)%nat).
  { unfold patch. rewrite firstn_length, skipn_length. unfold zlen in Ln. unfold n, L. rewrite <- Z2Nat.inj_mul by lia. replace (pc * ps * h)%Z with (pc * (ps * h))%Z by ring. lia. }
  assert (EL : vad_loop (N:=RN) h [] [] patch = map lvl (map (fun t => quant (N:=RN) (firstn L (skipn (t * L) patch))) (seq 0 n))).
  { replace h with (Z.of_nat L) at 1 by (unfold L; lia). rewrite (g_frames (N:=RN) L n patch []) by (auto; unfold L; lia). rewrite g_fold. reflexivity. }
  match goal with |- context [get_vad_results ?x] => change (get_vad_results x) with (get_vad_results (N:=RN) (vad_loop (N:=RN) h [] [] patch)) end.
  rewrite EL. clear EL.
  set (frs := map (fun t => quant (N:=RN) (firstn L (skipn (t * L) patch))) (seq 0 n)).
  destruct (g_vad (map lvl frs) (lvl_flag _)) as (vad & EV & LV & FV & V0 & VT). rewrite EV. cbn [bind].
  assert (Lf : zlen (map lvl frs) = (pc * ps)%Z). { rewrite zlen_map. unfold frs. unfold zlen. rewrite map_length, seq_length. unfold n. lia. }
  rewrite Lf in LV.
  assert (LV2 : List.length vad = n). { unfold n. unfold zlen in LV. lia. }
  set (p := Z.to_nat ps). assert (N1 : (1 * p <= n)%nat) by (unfold p, n; lia).
  destruct (chunk_one_first (N:=RN) (List.length vad) p vad) as (cs & CH); [rewrite LV2; unfold p in *; lia|change (num RN) with R; unfold p in *; lia|].
  match goal with |- context [collect_active ps fp ?q] => assert (CH2 : q = firstn p vad :: cs) by exact CH; rewrite CH2 end.
  cbn [collect_active].
  assert (A0 : Rleb 1 (seq_sum (N:=RN) (firstn p vad)) = true).
  { apply active_chunk; [apply (flagged_sub vad 0); auto|]. apply (one_in vad 0 p 0); [unfold p; lia|exact V0]. }
  cbn [nleb RN]. change (nofZ RN 1) with 1. rewrite A0. eauto.
Qed.
Lemma vad_short pf ps (m : mat RN) (s : AudioSignal RN) (win : AnalysisWindow RN) :
  (2 <= ps <= 2 ^ 16)%Z -> (Z.of_nat (mcols m) < ps / 2 - 1 + ps)%Z ->
  is_panic (do idx <- create_ref_patch_indices (N:=RN) pf (VadPatchCreator ps) m s win;
            create_patches_from_indices (N:=RN) ps m idx).
Proof.
  intros Hp Hm. cbn [create_ref_patch_indices]. set (w := Z.of_nat (mcols m)) in *.
  set (fp := (ps / 2 - 1)%Z) in *.
  assert (Hfp : (0 <= fp)%Z) by (unfold fp; assert (1 <= ps / 2)%Z by (apply Z.div_le_lower_bound; lia); lia).
  assert (Hfp2 : (fp < 2 ^ 16)%Z) by (unfold fp; assert (ps / 2 < ps)%Z by (apply Z.div_lt; lia); lia).
  assert (Hh : (0 <= hop_size win)%Z) by (apply usize_pos).
  apply panic_bind'; [apply ne_vad|]. intros idx HI. unfold vad_patch_indices in HI.
  inv_do HI. inv_do Hk. inv_do Hk0.
  rewrite usub_ok in Hv1 by (unfold fp in Hfp; lia). injection Hv1 as <-. fold fp in Hk.
  inv_do Hk. inv_do Hk0. unfold udiv in Hv2. destruct (Z.eqb_spec ps 0); [lia|]. injection Hv2 as <-.
  inv_do Hk. inv_do Hk0. inv_do Hk. injection Hk0 as <-.
  destruct (Z.le_gt_cases fp w) as [L|L].
  - rewrite usub_ok in Hv1 by auto. injection Hv1 as <-.
    assert (P0 : ((w - fp) / ps = 0)%Z) by (apply Z.div_small; lia). rewrite P0 in *.
    rewrite umul_ok in Hv2 by (unfold usize_mod; lia). injection Hv2 as <-.
    unfold get_voice_activity in Hv4. rewrite uadd_ok in Hv4 by (unfold usize_mod; lia). cbn [bind] in Hv4.
    inv_do Hv4. inv_do Hk. apply zslice_ok in Hv1. destruct Hv1 as (_ & ->).
    replace (Z.to_nat (fp + 0 - fp)) with 0%nat in Hk0 by lia. cbn [firstn vad_loop] in Hk0.
    destruct (g_vad [] (Forall_nil _)) as (vad & EV & LV & FV & V0 & _). assert (v4 = vad) by (assert (Q : Ok v4 = Ok vad) by exact (eq_trans (eq_sym Hk0) EV); congruence). subst v4.
    assert (LV2 : List.length vad = 2%nat) by (unfold zlen in LV; cbn in LV; lia).
    change (num RN) with R in *. rewrite LV2. destruct (chunk_one_first (N:=RN) 2 (Z.to_nat ps) vad) as (cs & CH); [lia|change (num RN) with R; lia|].
    change (num RN) with R in *. rewrite CH. cbn [collect_active].
    assert (A0 : Rleb 1 (seq_sum (N:=RN) (firstn (Z.to_nat ps) vad)) = true).
    { apply active_chunk; [apply (flagged_sub vad 0); auto|]. apply (one_in vad 0 (Z.to_nat ps) 0); [lia|exact V0]. }
    cbn [nleb RN]. change (nofZ RN 1) with 1. rewrite A0.
    unfold create_patches_from_indices. cbn [mapM].
    apply panic_bind. unfold mslice_cols. fold w.
    destruct (Z.leb_spec (fp + ps) w); [lia|]. rewrite andb_false_r. exists PIndex; auto.
  - unfold usub in Hv1. destruct (Z.leb_spec fp w); [lia|]. destruct pf; [discriminate|].
    injection Hv1 as <-. exfalso. unfold alloc8 in Hv3.
    assert ((2 ^ 47) <= (w - fp + usize_mod) / ps)%Z.
    { apply Z.div_le_lower_bound; [lia|]. unfold usize_mod. nia. }
    destruct (Z.leb_spec (8 * ((w - fp + usize_mod) / ps)) (2 ^ 47)); [lia|discriminate].
Qed.

(** ** Runs *)
Lemma run_kind pf nb v ws (m : Manager RN) calls files a b (rs ds : AudioSignal RN) h :
  let L := sig_len rs in let D := sig_len ds in
  new_manager nb v ws = Ok m ->
  load_as_mono (files a) = Ok rs -> load_as_mono (files b) = Ok ds ->
  sample_rate rs = (50 * h)%Z -> sample_rate ds = (50 * h)%Z ->
  (L <= 2 ^ 30)%Z -> (D <= 2 ^ 30)%Z ->
  let m1 := after_calls pf nb m calls in
  ((L = 0 \/ D = 0)%Z -> kind (snd (run pf nb files m1 a b)) = Fails FailedToAlignSignals) /\
  ((1 <= L)%Z -> (1 <= D)%Z -> exists al lag, globally_align pf rs ds = Ok (Some (al, lag)) /\
     (D - L / 2 <= sig_len al <= D + L / 2)%Z /\ sample_rate al = sample_rate rs /\
     exists f, kind (snd (run pf nb files m1 a b)) =
       kind (snd (calculate_similarity pf nb rs al f (new_window (50 * h) OVERLAP WINDOW_DURATION) (mg_creator m) (mg_mapper m) ws))).
Proof.
  intros L D Hm La Lb Ra Rb HL HD m1.
  destruct (after_same pf nb calls m) as (Sw & Cr & Mp & _). fold m1 in Sw, Cr, Mp.
  assert (Hsw : mg_search_window m = ws) by (unfold new_manager in Hm; destruct v as [u|[s|]]; cbn [bind] in Hm; try discriminate; inversion Hm; reflexivity).
  unfold run. rewrite La, Lb. unfold validate_input_audio. rewrite Ra, Rb, Z.eqb_refl. cbn [negb]. unfold compute_results. split.
  - intros H. rewrite align_empty; auto. fold L. lia.
  - intros H1 H2. destruct (align_any pf rs ds) as (al & lag & EA & RA & AL); [fold L; lia|fold D; lia|].
    exists al, lag. split; auto. split; [exact AL|]. split; [congruence|]. exists (mg_filterbank m1).
    rewrite EA, Ra, Sw, Cr, Mp, Hsw. destruct (calculate_similarity _ _ _ _ _ _ _ _ _); reflexivity.
Qed.
Lemma kind_panic {A} (r : res A) : is_panic r -> kind r = Panics.
Proof. intros (p & ->). reflexivity. Qed.
Lemma frames_div h n c : (1 <= h)%Z -> frames h n = c -> (c * h + 3 * h <= n < (c + 4) * h)%Z.
Proof. intros Hh <-. unfold frames. pose proof (Z.div_mod (n - 4 * h) h ltac:(lia)). pose proof (Z.mod_pos_bound (n - 4 * h) h ltac:(lia)). nia. Qed.
Lemma sim_create_err pf nb (rs al : AudioSignal RN) (f : Filterbank RN) w cr mapper ws hop e :
  let c := (1 + (sig_len rs - 4 * hop) / hop)%Z in
  (1 <= nb)%nat -> win_size w = (4 * hop)%Z -> hop_size w = hop -> (1 <= hop)%Z ->
  (4 * hop <= sig_len rs)%Z -> (4 * hop <= sig_len al)%Z ->
  (forall m : mat RN, Z.of_nat (mcols m) = c -> create_ref_patch_indices pf cr m rs w = Err e) ->
  snd (calculate_similarity pf nb rs al f w cr mapper ws) = Err e.
Proof.
  intros c Hnb HW HH Hhop HL HA HI.
  unfold calculate_similarity. cbv zeta. set (sc := scale_to_match_sound_pressure_level rs al).
  assert (Sl : sig_len sc = sig_len al) by apply scale_len.
  destruct (build_total nb f rs w) as (f1 & rspec & E1 & W1 & R1 & C1); [lia|lia|lia|]. rewrite E1.
  destruct (build_total nb f1 sc w) as (f2 & dspec & E2 & W2 & R2 & C2); [lia|lia|lia|]. rewrite E2.
  rewrite HW, HH in C1, C2. rewrite Sl in C2. fold c in C1.
  pose proof (Z.div_pos (sig_len rs - 4 * hop) hop ltac:(lia) ltac:(lia)). pose proof (Z.div_pos (sig_len al - 4 * hop) hop ltac:(lia) ltac:(lia)).
  destruct (prep_total rspec dspec) as (x & y & E3); try lia. rewrite E3. cbn [bind].
  pose proof (prepare_shape _ _ _ _ E3) as ((Wx & Rx & Kx & _) & _).
  rewrite HI by lia. reflexivity.
Qed.

Lemma full_kind pf nb (rs al : AudioSignal RN) (f : Filterbank RN) mapper ws h :
  let w := new_window (N:=RN) (50 * h) OVERLAP WINDOW_DURATION in
  (1 <= nb)%nat -> (0 <= ws <= 2 ^ 20)%Z -> (1 <= h)%Z -> (50 * h < 2 ^ 32)%Z -> sample_rate rs = (50 * h)%Z -> sample_rate al = sample_rate rs ->
  (sig_len rs <= 2 ^ 30)%Z -> (sig_len al <= 2 ^ 31)%Z ->
  (forall fv, List.length fv = nb -> exists q, predict_quality mapper fv = Ok q) ->
  kind (snd (calculate_similarity pf nb rs al f w (ImagePatchCreator 20) mapper ws)) = fullband_outcome h ws (sig_len rs) (sig_len al).
Proof.
  intros w Hnb Hws Hh Hh2 Hr Hra HL HA Hq. unfold fullband_outcome. cbv zeta.
  destruct (window_50 h ltac:(lia)) as (W1 & W2 & W3). fold w in W1, W2, W3.
  destruct (sim_few pf nb rs al f w (ImagePatchCreator 20) mapper ws ltac:(lia) ltac:(lia)) as (F1 & F2).
  rewrite W1 in F1, F2.
  destruct (Z.ltb_spec (sig_len rs) (4 * h)) as [L1|L1]; [rewrite (F1 L1); reflexivity|].
  destruct (Z.ltb_spec (sig_len al) (4 * h)) as [A1|A1]; [rewrite (F2 L1 A1); reflexivity|]. clear F1 F2.
  set (c := frames h (sig_len rs)). set (d := frames h (sig_len al)).
  assert (EC : (1 + (sig_len rs - 4 * h) / h)%Z = c) by (unfold c, frames; lia).
  assert (ED : (1 + (sig_len al - 4 * h) / h)%Z = d) by (unfold d, frames; lia).
  assert (Hc : (1 <= c <= 2 ^ 30)%Z). { rewrite <- EC. pose proof (Z.div_pos (sig_len rs - 4 * h) h ltac:(lia) ltac:(lia)). pose proof (Z.div_le_upper_bound (sig_len rs - 4 * h) h (sig_len rs - 4) ltac:(lia) ltac:(nia)). lia. }
  destruct (Z.ltb_spec c 30) as [C1|C1].
  { rewrite (sim_create_err pf nb rs al f w (ImagePatchCreator 20) mapper ws h (ReferenceSpectrogramTooSmall c 10)); auto.
    intros m Hm. cbn [create_ref_patch_indices]. rewrite Hm, EC. apply (proj2 (C18_iff pf 20 c ltac:(lia))). exact C1. }
  assert (Hgo : forall idx, image_patch_indices pf 20 c = Ok idx -> forall m : mat RN, Z.of_nat (mcols m) = c ->
    create_ref_patch_indices pf (ImagePatchCreator 20) m rs w = Ok idx).
  { intros idx E m Hm. cbn [create_ref_patch_indices]. rewrite Hm. exact E. }
  assert (Hcw : (c + ws * 20 < 2 ^ 31)%Z) by lia.
  destruct (C17_grid pf 20 c ltac:(lia) ltac:(change (20 / 2)%Z with 10%Z; lia)) as (n & Hn & E & G & F). change (20 / 2)%Z with 10%Z in *.
  set (idx := map (fun k => (10 - 1 + 20 * k)%Z) (zrange 0 n)) in *.
  assert (LI : List.length idx = Z.to_nat n) by (unfold idx, zrange; rewrite !map_length, seq_length; lia).
  assert (N0 : nth 0 idx 0%Z = 9%Z) by (unfold idx; rewrite zrange_cons by lia; reflexivity).
  assert (Hin : forall x, In x idx -> (0 <= x)%Z /\ (x + 20 <= c)%Z).
  { intros x Hx. apply in_map_iff in Hx as (k & <- & Hk). apply in_zrange in Hk. apply F. lia. }
  assert (PAN : (List.length idx = 1)%nat \/ ((2 <= List.length idx)%nat /\ (d < nth 1 idx 0 - 10)%Z) \/ (exists i, In i idx /\ (d < i - ws * 20)%Z) ->
    kind (snd (calculate_similarity pf nb rs al f w (ImagePatchCreator 20) mapper ws)) = Panics).
  { intros H. apply kind_panic. apply (sim_panics pf nb rs al f w (ImagePatchCreator 20) mapper ws h idx); cbn [creator_patch_size]; change (20 / 2)%Z with 10%Z; change (30 / 2)%Z with 15%Z; rewrite ?EC, ?ED; auto; try lia. }
  destruct (Z.ltb_spec c 51) as [C2|C2].
  { apply PAN. left. rewrite LI. assert (n = 1)%Z; [|lia]. destruct (Z.eq_dec n 1); auto. assert (0 <= 1 < n)%Z by lia. apply G in H. lia. }
  assert (N2 : (2 <= n)%Z) by (assert (0 <= 1 < n)%Z; [apply G; lia|lia]).
  assert (N1 : nth 1 idx 0%Z = 29%Z) by (unfold idx; rewrite !zrange_cons by lia; reflexivity).
  assert (EN : (n - 1 = (c - 31) / 20)%Z).
  { apply Z.div_unique with (r := (c - 31 - 20 * (n - 1))%Z); [|lia].
    assert (A2 : (0 <= n - 1 < n)%Z) by lia. apply G in A2.
    assert (A3 : ~ (0 <= n < n)%Z) by lia. rewrite G in A3. lia. }
  rewrite <- EN.
  destruct (Z.ltb_spec d 19) as [D1|D1]; [apply PAN; right; left; rewrite N1, LI; lia|].
  destruct (Z.ltb_spec d (9 + 20 * (n - 1) - 20 * ws)) as [D2|D2].
  { apply PAN. right; right. exists (9 + 20 * (n - 1))%Z. split; [|lia]. apply in_map_iff. exists (n - 1)%Z. split; [lia|]. apply in_zrange. lia. }
  destruct (sim_total pf nb rs al f w (ImagePatchCreator 20) mapper ws h idx) as (f' & r & ES); cbn [creator_patch_size]; rewrite ?EC, ?ED; auto; try lia.
  - intros i Hi. apply in_map_iff in Hi as (k & <- & Hk). apply in_zrange in Hk. lia.
  - rewrite ES. reflexivity.
Qed.

Lemma sorted_last l i : StronglySorted Z.lt l -> In i l -> (i <= List.last l 0)%Z.
Proof.
  revert i. induction l as [|x l IH]; intros i S H; [destruct H|]. inversion S as [|? ? S1 F]. subst.
  destruct l as [|y l]; [destruct H as [->|[]]; cbn; lia|].
  change (List.last (x :: y :: l) 0%Z) with (List.last (y :: l) 0%Z).
  destruct H as [->|H]; [|auto]. rewrite Forall_forall in F. specialize (F y (or_introl eq_refl)). specialize (IH y S1 (or_introl eq_refl)). lia.
Qed.
Lemma last_in (x : Z) l : In (List.last (x :: l) 0%Z) (x :: l).
Proof. revert x. induction l as [|y l IH]; intros x; [left; reflexivity|]. right. apply IH. Qed.

Lemma wide_kind pf nb (rs al : AudioSignal RN) (f : Filterbank RN) mapper ws h :
  let w := new_window (N:=RN) (50 * h) OVERLAP WINDOW_DURATION in
  (1 <= nb)%nat -> (0 <= ws <= 2 ^ 20)%Z -> (1 <= h)%Z -> (50 * h < 2 ^ 32)%Z -> sample_rate rs = (50 * h)%Z -> sample_rate al = sample_rate rs ->
  (sig_len rs <= 2 ^ 30)%Z -> (sig_len al <= 2 ^ 31)%Z ->
  (forall fv, List.length fv = nb -> exists q, predict_quality mapper fv = Ok q) ->
  let k := kind (snd (calculate_similarity pf nb rs al f w (VadPatchCreator 30) mapper ws)) in
  ((frames h (sig_len rs) < 44)%Z -> forall starts, k = wideband_outcome h ws (sig_len rs) (sig_len al) starts) /\
  ((44 <= frames h (sig_len rs))%Z -> exists starts, vad_patch_indices pf 30 (frames h (sig_len rs)) rs w = Ok starts /\
     k = wideband_outcome h ws (sig_len rs) (sig_len al) starts).
Proof.
  intros w Hnb Hws Hh Hh2 Hr Hra HL HA Hq k. unfold wideband_outcome. cbv zeta.
  destruct (window_50 h ltac:(lia)) as (W1 & W2 & W3). fold w in W1, W2, W3.
  destruct (sim_few pf nb rs al f w (VadPatchCreator 30) mapper ws ltac:(lia) ltac:(lia)) as (F1 & F2).
  rewrite W1 in F1, F2. set (c := frames h (sig_len rs)). set (d := frames h (sig_len al)).
  assert (EC : (1 + (sig_len rs - 4 * h) / h)%Z = c) by (unfold c, frames; lia).
  assert (ED : (1 + (sig_len al - 4 * h) / h)%Z = d) by (unfold d, frames; lia).
  split.
  - intros C1 starts.
    destruct (Z.ltb_spec (sig_len rs) (4 * h)) as [L1|L1]; [unfold k; rewrite (F1 L1); reflexivity|].
    destruct (Z.ltb_spec (sig_len al) (4 * h)) as [A1|A1]; [unfold k; rewrite (F2 L1 A1); reflexivity|]. clear F1 F2.
    destruct (Z.ltb_spec c 44) as [_|]; [|lia].
    apply kind_panic. apply compare_panics; rewrite ?W1, ?W2; try lia. intros r dd Er _. cbn [creator_patch_size].
    pose proof (vad_short pf 30 r rs w ltac:(lia) ltac:(change (30 / 2)%Z with 15%Z; lia)) as P.
    destruct (create_ref_patch_indices pf (VadPatchCreator 30) r rs w) as [idx|e|p]; cbn [bind] in *; [|destruct P; discriminate|exists p; reflexivity].
    apply panic_bind. exact P.
  - intros C1. pose proof (frames_div h (sig_len rs) c Hh eq_refl) as FD.
    destruct (vad_first pf 30 c rs w) as (rest & EV); rewrite ?W2; try lia; try nia.
    change (30 / 2 - 1)%Z with 14%Z in EV. exists (14 :: rest)%Z. split; [exact EV|].
    assert (L1 : (4 * h <= sig_len rs)%Z) by nia.
    destruct (Z.ltb_spec (sig_len rs) (4 * h)) as [|_]; [lia|].
    destruct (Z.ltb_spec (sig_len al) (4 * h)) as [A1|A1]; [unfold k; rewrite (F2 L1 A1); reflexivity|]. clear F1 F2.
    destruct (Z.ltb_spec c 44) as [|_]; [lia|].
    assert (Hc : (c <= 2 ^ 30)%Z) by nia.
    assert (Hgo : forall m : mat RN, Z.of_nat (mcols m) = c ->
      create_ref_patch_indices pf (VadPatchCreator 30) m rs w = Ok (14 :: rest)%Z).
    { intros m Hm. cbn [create_ref_patch_indices]. rewrite Hm. exact EV. }
    assert (SO : StronglySorted Z.lt (14 :: rest)%Z).
    { apply (idx_sorted pf (VadPatchCreator 30) (mbuild (N:=RN) 0 (Z.to_nat c) (fun _ _ => 0)) rs w); [cbn; lia|].
      apply Hgo. cbn [mbuild mcols]. clear - C1. lia. }
    assert (Hin : forall x, In x (14 :: rest)%Z -> (0 <= x)%Z /\ (x + 30 <= c)%Z).
    { intros x Hx. destruct (vad_range pf 30 c rs w (14 :: rest)%Z) with (x := x); rewrite ?W2; auto; try lia; try nia. }
    assert (PAN : (List.length (14 :: rest)%Z = 1)%nat \/ ((2 <= List.length (14 :: rest)%Z)%nat /\ (d < nth 1 (14 :: rest) 0 - 15)%Z) \/ (exists i, In i (14 :: rest)%Z /\ (d < i - ws * 30)%Z) ->
      k = Panics).
    { intros H. apply kind_panic. apply (sim_panics pf nb rs al f w (VadPatchCreator 30) mapper ws h (14 :: rest)%Z); cbn [creator_patch_size]; change (20 / 2)%Z with 10%Z; change (30 / 2)%Z with 15%Z; rewrite ?EC, ?ED; auto; try lia. }
    destruct rest as [|second rest]; [apply PAN; left; reflexivity|].
    destruct (Z.ltb_spec d (second - 15)) as [D1|D1]; [apply PAN; right; left; split; [cbn; lia|exact D1]|].
    set (l := (14 :: second :: rest)%Z) in *.
    destruct (Z.ltb_spec d (List.last l 0%Z - 30 * ws)%Z) as [D2|D2].
    { apply PAN. right; right. exists (List.last l 0%Z). split; [apply last_in|lia]. }
    destruct (sim_total pf nb rs al f w (VadPatchCreator 30) mapper ws h l) as (f' & r & ES); cbn [creator_patch_size]; rewrite ?EC, ?ED; auto; try lia.
    + cbn [l List.length]. lia.
    + change (30 / 2)%Z with 15%Z. cbn [l nth]. destruct (StronglySorted_inv SO) as (_ & FA). rewrite Forall_forall in FA. specialize (FA second (or_introl eq_refl)). lia.
    + intros i Hi. pose proof (sorted_last l i SO Hi). lia.
    + unfold k. rewrite ES. reflexivity.
Qed.

Lemma C59_full pf nb model ws (m : Manager RN) calls files a b (rs ds : AudioSignal RN) h :
  let L := sig_len rs in let D := sig_len ds in
  new_manager nb (Fullband (Some model)) ws = Ok m -> (0 <= ws <= 2 ^ 20)%Z -> (1 <= nb)%nat ->
  (forall fv, List.length fv = nb -> exists q, svr_predict model fv = Ok q) ->
  load_as_mono (files a) = Ok rs -> load_as_mono (files b) = Ok ds ->
  sample_rate rs = (50 * h)%Z -> sample_rate ds = (50 * h)%Z -> (1 <= h)%Z -> (50 * h < 2 ^ 32)%Z -> (L <= 2 ^ 30)%Z -> (D <= 2 ^ 30)%Z ->
  let k := kind (snd (run pf nb files (after_calls pf nb m calls) a b)) in
  ((L = 0 \/ D = 0)%Z -> k = Fails FailedToAlignSignals) /\
  ((1 <= L)%Z -> (1 <= D)%Z -> exists al lag, globally_align pf rs ds = Ok (Some (al, lag)) /\
     (D - L / 2 <= sig_len al <= D + L / 2)%Z /\ k = fullband_outcome h ws L (sig_len al)).
Proof.
  intros L D Hm Hws Hnb HS La Lb Ra Rb Hh Hh2 HL HD k.
  destruct (run_kind pf nb _ ws m calls files a b rs ds h Hm La Lb Ra Rb HL HD) as (K1 & K2). split; [exact K1|].
  intros H1 H2. destruct (K2 H1 H2) as (al & lag & EA & BA & RA & f & E). exists al, lag. split; [exact EA|]. split; [exact BA|].
  assert (L / 2 <= L)%Z by (apply Z.div_le_upper_bound; lia).
  unfold k. rewrite E. assert (Hc : mg_creator m = ImagePatchCreator 20) by (unfold new_manager in Hm; cbn [bind] in Hm; inversion Hm; reflexivity). rewrite Hc.
  apply full_kind; auto; [unfold L, D in *; lia|].
  intros fv Hf. unfold new_manager in Hm. cbn [bind] in Hm. inversion Hm. cbn [mg_mapper snd predict_quality]. destruct (HS fv Hf) as (q & ->). cbn [bind]. eauto.
Qed.
Lemma C59_wide pf nb u ws (m : Manager RN) calls files a b (rs ds : AudioSignal RN) h :
  let L := sig_len rs in let D := sig_len ds in
  new_manager nb (Wideband u) ws = Ok m -> (0 <= ws <= 2 ^ 20)%Z -> (1 <= nb)%nat ->
  load_as_mono (files a) = Ok rs -> load_as_mono (files b) = Ok ds ->
  sample_rate rs = (50 * h)%Z -> sample_rate ds = (50 * h)%Z -> (1 <= h)%Z -> (50 * h < 2 ^ 32)%Z -> (L <= 2 ^ 30)%Z -> (D <= 2 ^ 30)%Z ->
  let k := kind (snd (run pf nb files (after_calls pf nb m calls) a b)) in
  ((L = 0 \/ D = 0)%Z -> k = Fails FailedToAlignSignals) /\
  ((1 <= L)%Z -> (1 <= D)%Z -> exists al lag starts, globally_align pf rs ds = Ok (Some (al, lag)) /\
     (D - L / 2 <= sig_len al <= D + L / 2)%Z /\
     ((44 <= frames h L)%Z -> vad_patch_indices pf 30 (frames h L) rs (new_window (50 * h) OVERLAP WINDOW_DURATION) = Ok starts) /\
     k = wideband_outcome h ws L (sig_len al) starts).
Proof.
  intros L D Hm Hws Hnb La Lb Ra Rb Hh Hh2 HL HD k.
  destruct (run_kind pf nb _ ws m calls files a b rs ds h Hm La Lb Ra Rb HL HD) as (K1 & K2). split; [exact K1|].
  intros H1 H2. destruct (K2 H1 H2) as (al & lag & EA & BA & RA & f & E). exists al, lag.
  assert (L / 2 <= L)%Z by (apply Z.div_le_upper_bound; lia).
  assert (Hc : mg_creator m = VadPatchCreator 30) by (unfold new_manager in Hm; cbn [bind] in Hm; inversion Hm; reflexivity). rewrite Hc in E.
  destruct (wide_kind pf nb rs al f (mg_mapper m) ws h) as (X & Y); auto; [unfold L, D in *; lia| |].
  { intros fv _. unfold new_manager in Hm. cbn [bind] in Hm. inversion Hm. cbn [mg_mapper snd predict_quality]. eauto. }
  fold L in X, Y. destruct (Z.lt_ge_cases (frames h L) 44) as [C|C].
  - exists []. split; [exact EA|]. split; [exact BA|]. split; [lia|]. unfold k. rewrite E. apply X. exact C.
  - destruct (Y C) as (starts & EV & EK). exists starts. split; [exact EA|]. split; [exact BA|]. split; [intros _; exact EV|]. unfold k. rewrite E. exact EK.
Qed.
(** The alignment error, in both modes. *)
Lemma C59_align pf nb v ws (m : Manager RN) calls files a b (rs ds : AudioSignal RN) h :
  new_manager nb v ws = Ok m -> (0 <= ws <= 2 ^ 20)%Z -> (1 <= nb)%nat ->
  (forall model, v = Fullband (Some model) -> forall fv, List.length fv = nb -> exists q, svr_predict model fv = Ok q) ->
  load_as_mono (files a) = Ok rs -> load_as_mono (files b) = Ok ds ->
  sample_rate rs = (50 * h)%Z -> sample_rate ds = (50 * h)%Z -> (1 <= h)%Z -> (50 * h < 2 ^ 32)%Z -> (sig_len rs <= 2 ^ 30)%Z -> (sig_len ds <= 2 ^ 30)%Z ->
  (snd (run pf nb files (after_calls pf nb m calls) a b) = Err FailedToAlignSignals <-> sig_len rs = 0%Z \/ sig_len ds = 0%Z).
Proof.
  intros Hm Hws Hnb HS La Lb Ra Rb Hh Hh2 HL HD. set (r := snd (run pf nb files (after_calls pf nb m calls) a b)).
  assert (0 <= sig_len rs)%Z by (unfold sig_len, zlen; lia). assert (0 <= sig_len ds)%Z by (unfold sig_len, zlen; lia).
  assert (KF : kind r = Fails FailedToAlignSignals <-> r = Err FailedToAlignSignals).
  { destruct r as [x|e|p]; cbn [kind]; split; intros X; try discriminate; injection X as ->; reflexivity. }
  rewrite <- KF. unfold r. clear KF r.
  assert (C : (sig_len rs = 0 \/ sig_len ds = 0 \/ (1 <= sig_len rs /\ 1 <= sig_len ds))%Z) by lia.
  destruct v as [u|[model|]].
  - destruct (C59_wide pf nb u ws m calls files a b rs ds h) as (X & Y); auto.
    split; [|exact X]. intros K. destruct C as [C|[C|[C1 C2]]]; auto. exfalso.
    destruct (Y C1 C2) as (al & lag & starts & _ & _ & _ & E). rewrite E in K. revert K. unfold wideband_outcome. cbv zeta.
    repeat match goal with |- context [(?x <? ?y)%Z] => destruct (x <? y)%Z end; destruct starts as [|? [|? ?]]; try discriminate;
    repeat match goal with |- context [(?x <? ?y)%Z] => destruct (x <? y)%Z end; discriminate.
  - destruct (C59_full pf nb model ws m calls files a b rs ds h) as (X & Y); auto.
    split; [|exact X]. intros K. destruct C as [C|[C|[C1 C2]]]; auto. exfalso.
    destruct (Y C1 C2) as (al & lag & _ & _ & E). rewrite E in K. revert K. unfold fullband_outcome. cbv zeta.
    repeat match goal with |- context [(?x <? ?y)%Z] => destruct (x <? y)%Z end; discriminate.
  - discriminate Hm.
Qed.
