(** C41: comparing a signal with itself, in exact arithmetic: the whole run. *)
From Coq Require Import Reals Lra Lia Sorted.
From Flocq Require Import Core.
From Verif Require Import Base Num Mat RNum M_Audio M_Align M_Spectro M_Patch M_Nsim M_Selector M_Visqol.
From Verif Require Import P_Base P_Mat P_R P_Level P_Audio P_Manager P_Score P_Patch Spec Spec2 Spec3 P_Conv P_Nsim P_Spectro P_Vad P_Dp P_Dp2 P_Dp3 P_Times P_Agg P_Run P_Self P_Slice P_Same.
Open Scope R_scope.

(** ** Preparing the same spectrogram twice *)
Lemma prepare_same {N} (a x y : Spectrogram N) : prepare_spectrograms_for_comparison a a = Ok (x, y) -> x = y.
Proof.
  unfold prepare_spectrograms_for_comparison, raise_floor_per_frame; cbv zeta; intros H.
  inv_do H. inv_do Hv. injection Hk0 as <-. inv_do Hk. inv_do Hk0. injection Hk as <- <-. reflexivity.
Qed.

(** ** Start frames *)
Lemma collect_incr {N} ps (cs : list (list (num N))) : forall i, (0 < ps)%Z ->
  StronglySorted Z.lt (collect_active (N:=N) ps i cs) /\ Forall (fun x => (i <= x)%Z) (collect_active (N:=N) ps i cs).
Proof.
  induction cs as [|c t IH]; intros i Hp; cbn [collect_active]; [split; constructor|].
  destruct (IH (i + ps)%Z Hp) as [A B].
  assert (C : Forall (fun x => (i <= x)%Z) (collect_active ps (i + ps) t)) by (eapply Forall_impl; [|exact B]; cbv beta; lia).
  destruct (nleb N _ _); [|auto]. split; [constructor; auto|constructor; [lia|auto]].
  eapply Forall_impl; [|exact B]; cbv beta; lia.
Qed.
Lemma grid_sorted a b n : (0 < b)%Z -> forall k, StronglySorted Z.lt (map (fun i => (a + b * i)%Z) (zrange k n)).
Proof.
  intros Hb k. remember (Z.to_nat (n - k)) as c eqn:E. revert k E. induction c as [|c IH]; intros k E.
  - rewrite zrange_empty by lia. constructor.
  - rewrite zrange_cons by lia. cbn [map]. constructor; [apply IH; lia|].
    apply Forall_forall. intros x Hx. apply in_map_iff in Hx as (i & <- & Hi). apply in_zrange in Hi. nia.
Qed.
Lemma idx_sorted {N} pf cr (m : mat N) s w idx : (2 <= creator_patch_size cr)%Z ->
  create_ref_patch_indices pf cr m s w = Ok idx -> StronglySorted Z.lt idx.
Proof.
  intros Hp H. destruct cr as [ps|ps]; cbn [create_ref_patch_indices creator_patch_size] in *.
  - unfold vad_patch_indices in H. repeat (inv_do H; match goal with H2 : _ = Ok idx |- _ => rename H2 into H end).
    cbv zeta in H. repeat (inv_do H; match goal with H2 : _ = Ok idx |- _ => rename H2 into H end).
    injection H as <-. apply collect_incr. lia.
  - cbv zeta in H. destruct (Z.ltb_spec (Z.of_nat (mcols m)) (ps + ps / 2)).
    + unfold image_patch_indices in H. destruct (Z.ltb_spec (Z.of_nat (mcols m)) (ps + ps / 2)); [discriminate|lia].
    + destruct (C17_grid pf ps (Z.of_nat (mcols m)) Hp H0) as (n & _ & E & _). rewrite H in E. injection E as ->.
      apply grid_sorted. lia.
Qed.
Lemma sorted_nth l : StronglySorted Z.lt l -> forall k, (S k < List.length l)%nat -> (nth k l 0 < nth (S k) l 0)%Z.
Proof.
  induction 1 as [|x t S IH F]; intros k Hk; [cbn in Hk; lia|]. cbn [List.length] in Hk. destruct k as [|k].
  - cbn [nth]. destruct t as [|y t]; [cbn in Hk; lia|]. inversion F; auto.
  - cbn [nth]. apply IH. lia.
Qed.
Lemma patches_self {N} ps (sp : mat N) idx patches : (0 <= ps)%Z -> create_patches_from_indices ps sp idx = Ok patches ->
  List.length patches = List.length idx /\
  (forall k, (k < List.length idx)%nat -> (0 <= nth k idx 0)%Z /\ (nth k idx 0 + ps <= Z.of_nat (mcols sp))%Z /\
     nth_error patches k = Some (patch_at sp (nth k idx 0%Z) (Z.to_nat ps))).
Proof.
  intros Hps. unfold create_patches_from_indices. revert patches. induction idx as [|i t IH]; intros patches H; cbn [mapM] in H.
  - injection H as <-. split; auto. cbn. lia.
  - inv_do H. inv_do Hk. injection Hk0 as <-. destruct (IH _ Hv0) as [A B]. cbn [List.length]. split; [lia|].
    intros [|k] Hk; cbn [nth nth_error]; [|apply B; lia].
    apply mslice_ok in Hv. destruct Hv as (C & D & E). split; [lia|]. split; [lia|]. f_equal. rewrite E. unfold patch_at.
    replace (Z.to_nat (i + ps - i)) with (Z.to_nat ps) by lia. apply mbuild_ext. intros r j Hr Hj.
    destruct (Nat.ltb_spec (Z.to_nat i + j) (mcols sp)); [reflexivity|lia].
Qed.

(** ** Number of frames of a patch *)
Lemma ceil_usize x b : (0 <= b)%Z -> x <= IZR b -> (0 <= as_usize (N:=RN) (nceil RN x) <= b)%Z.
Proof.
  intros Hb H. unfold as_usize. cbn [ncast nceil RN]. rewrite Ztrunc_IZR. pose proof (Zceil_glb b x H). lia.
Qed.
Lemma quot_le n W fp : (0 <= W)%Z -> (0 <= fp)%Z -> (4 * n <= fp * W + 4)%Z -> (0 <= n)%Z -> IZR (4 * n) / IZR W <= IZR (fp + 4).
Proof.
  intros HW Hf Hn Hn0. destruct (Z.eq_dec W 0) as [-> |].
  - unfold Rdiv. rewrite Rinv_0, Rmult_0_r. apply IZR_le. lia.
  - assert (P : 0 < IZR W) by (apply IZR_lt; lia). apply Rmult_le_reg_r with (IZR W); auto.
    replace (IZR (4 * n) / IZR W * IZR W) with (IZR (4 * n)) by (field; lra). rewrite <- mult_IZR. apply IZR_le. nia.
Qed.
Lemma quarters a b : (0 <= a <= b)%Z -> (0 <= b / 4 - a / 4 /\ 4 * (b / 4 - a / 4) <= b - a + 4)%Z.
Proof.
  intros H. pose proof (Z.div_mod a 4 ltac:(lia)). pose proof (Z.div_mod b 4 ltac:(lia)).
  pose proof (Z.mod_pos_bound a 4 ltac:(lia)). pose proof (Z.mod_pos_bound b 4 ltac:(lia)). lia.
Qed.
Lemma count_bound pf nb rs ds w (f f' : Filterbank RN) old p idx c fp : 
  let fd := frame_dur (win_size w) (sample_rate rs) in
  sample_rate rs = sample_rate ds ->
  (1 <= sample_rate rs)%Z -> (0 <= win_size w)%Z -> (0 <= fp)%Z -> (sig_len rs < 2 ^ 62)%Z ->
  (forall r, In r idx -> (0 <= r)%Z /\ ((r + fp) * win_size w < 2 ^ 66)%Z) ->
  coarse_patch (N:=RN) idx c fd (fd * IZR fp) old ->
  realign_patch pf nb rs ds w f old = (f', Ok p) -> (0 <= frame_count (N:=RN) fd p <= fp + 4)%Z.
Proof.
  intros fd HR Hrate HW Hfp HL Hidx Hc H. destruct Hc as (sim & lost & off & r & Eold & Hoff & Hr).
  destruct (Hidx r Hr) as (Hr0 & Hbig).
  assert (Fd : fd = IZR (win_size w) / 4 / IZR (sample_rate rs)).
  { unfold fd, frame_dur. change (10 ^ 2)%Z with 100%Z. field. apply not_0_IZR. lia. }
  assert (HRne : IZR (sample_rate rs) <> 0) by (apply not_0_IZR; lia).
  apply realign_inv in H as [-> |(ra & da & ra' & da' & lag & fb1 & rspec & fb2 & dspec & rp & dp & new & S1 & S2 & AL & _ & _ & _ & _ & NL & ->)].
  - rewrite Eold. unfold frame_count. apply ceil_usize; [lia|]. cbn [set_times ref_patch_end_time ref_patch_start_time nsub nadd nmul nofZ ndiv RN].
    match goal with |- ?x <= _ => replace x with (fd * IZR fp / fd) by (unfold Rdiv; realeq; ring) end.
    destruct (Req_dec fd 0) as [E0|E0]; [rewrite E0; unfold Rdiv; rewrite Rmult_0_l, Rmult_0_l; apply IZR_le; lia|].
    replace (fd * IZR fp / fd) with (IZR fp) by (field; auto). apply IZR_le. lia.
  - assert (S1' : slice rs (IZR r * fd) (IZR r * fd + fd * IZR fp) = Ok ra) by (rewrite Eold in S1; exact S1).
    apply slice_R_len in S1'; auto. destruct S1' as [RR LR].
    assert (RD : sample_rate da = sample_rate ds) by (unfold slice in S2; cbv zeta in S2; inv_do S2; injection Hk as <-; reflexivity).
    apply C11_all in AL; [|congruence]. destruct AL as (_ & RR' & _ & (x & y & Ex) & _).
    assert (LL : (0 <= sig_len ra' <= sig_len ra)%Z) by (unfold sig_len, zlen in *; rewrite Ex, !app_length; lia).
    destruct (quarters (r * win_size w) ((r + fp) * win_size w) ltac:(nia)) as [Q1 Q2].
    unfold frame_count, choose_result. rewrite NL. cbn [ref_patch_end_time ref_patch_start_time]. apply ceil_usize; [lia|].
    eapply Rle_trans; [|apply (quot_le (sig_len ra') (win_size w) fp); auto; nia].
    right. cbn [nsub nadd nmul nofZ ndiv RN get_duration]. unfold get_duration. rewrite RR', RR. cbn [nofZ ndiv RN].
    match goal with |- (?s + ?d - ?s) / fd = _ => replace ((s + d - s) / fd) with (d / fd) by (unfold Rdiv; realeq; ring) end.
    rewrite Fd. rewrite (mult_IZR 4). destruct (Z.eq_dec (win_size w) 0) as [E0|E0].
    + rewrite E0. unfold Rdiv. rewrite !Rmult_0_l, Rinv_0. ring.
    + assert (IZR (win_size w) <> 0) by (apply not_0_IZR; auto). realeq. field. auto.
Qed.

(** ** Deviations *)
Lemma stds_loop pf fd nb K : (0 <= K)%Z -> forall (info : list (PatchSim RN)) tot c t, Forall (perfect nb) info ->
  (forall p, In p info -> (0 <= frame_count (N:=RN) fd p <= K)%Z) -> (0 <= tot)%Z -> (tot + K * Z.of_nat (List.length info) < usize_mod)%Z ->
  foldM (fun (st : list R * Z) p =>
             let '(contribution, total) := st in
             let fc := frame_count (N:=RN) fd p in
             do total' <- uadd pf total fc;
             do c' <- add_contribution (N:=RN) pf fc contribution (freq_band_stddevs p) (freq_band_means p);
             Ok (c', total')) (repeat (IZR tot) nb, tot) info = Ok (c, t) ->
  c = repeat (IZR t) nb.
Proof.
  intros HK info. induction info as [|p l IH]; intros tot c t HF HC Ht Hm H; cbn [foldM] in H.
  - exact (f_equal (fun r : res (list R * Z) => match r with Ok (x, _) => x | _ => [] end) (eq_sym H) ) + idtac.
    assert (E1 : repeat (IZR tot) nb = c) by exact (f_equal (fun r : res (list R * Z) => match r with Ok (x, _) => x | _ => [] end) H).
    assert (E2 : tot = t) by exact (f_equal (fun r : res (list R * Z) => match r with Ok (_, x) => x | _ => 0%Z end) H).
    subst. reflexivity.
  - cbv zeta in H. inversion HF; subst. destruct (HC p (or_introl eq_refl)) as [F1 F2]. cbn [List.length] in Hm.
    rewrite uadd_ok in H by nia. cbn [bind] in H. destruct H2 as (_ & E1 & E2). rewrite E1, E2 in H.
    inv_do H. inv_do Hv. apply contrib_perfect in Hv0; [|auto]. subst v0.
    assert (E3 : (repeat (IZR (tot + frame_count (N:=RN) fd p)) nb, (tot + frame_count (N:=RN) fd p)%Z) = v).
    { rewrite plus_IZR. exact (f_equal (fun r : res (list R * Z) => match r with Ok x => x | _ => ([], 0%Z) end) Hk0). }
    subst v. eapply IH in Hk; auto; try lia. intros q Hq. apply HC. right. auto.
Qed.
Lemma stds_perfect pf fd nb K (info : list (PatchSim RN)) fv out : (0 <= K)%Z -> calc_per_patch_mean_freq_band_means info = Ok fv -> List.length fv = nb -> Forall (perfect nb) info ->
  (forall p, In p info -> (0 <= frame_count (N:=RN) fd p <= K)%Z) -> (K * Z.of_nat (List.length info) < usize_mod)%Z -> info <> [] ->
  calc_per_patch_mean_freq_band_std_devs (N:=RN) pf info fd = Ok out -> out = repeat 0 nb.
Proof.
  intros HK Hfv Lv HF HC Hm Hne H. unfold calc_per_patch_mean_freq_band_std_devs in H. inv_do H. inv_do Hk. inv_do Hk0. destruct v1 as [c t].
  assert (N0 : v0 = nb). { unfold num_bands_of in Hv0. destruct info as [|p l]; [tauto|]. cbn in Hv0. inversion HF; subst. apply perfect_shape in H1. symmetry. rewrite <- H1. exact (f_equal (fun r => match r with Ok x => x | _ => O end) Hv0). }
  subst v0.
  assert (v = fv) by congruence. subst v.
  apply means_perfect with (nb := nb) in Hv; auto.
  assert (Ec : c = repeat (IZR t) nb). { exact (stds_loop pf fd nb K HK info 0%Z c t HF HC ltac:(lia) ltac:(lia) Hv1). }
  assert (Eo : out = map (fun cf : R * R => let '(c, f) := cf in
             let e := (c - f * f * IZR t) / (IZR t - 1) in
             if Rltb e 0 then 0 else R_sqrt.sqrt e) (combine c fv)).
  { symmetry. exact (f_equal (fun r : res (list R) => match r with Ok x => x | _ => [] end) Hk). }
  rewrite Eo, Ec, Hv. clear. induction nb as [|n IH]; [reflexivity|]. cbn [repeat combine map]. f_equal; [|exact IH].
  cbv zeta. replace ((IZR t - 1 * 1 * IZR t) / (IZR t - 1)) with 0 by (unfold Rdiv; ring). rewrite sqrt_0. destruct (Rltb 0 0); reflexivity.
Qed.

(** ** The run *)
Lemma usize_pos (x : R) : (0 <= as_usize (N:=RN) x)%Z.
Proof. unfold as_usize. cbn [ncast RN]. lia. Qed.
Lemma fine_each {N} pf nb rs ds w (l : list (PatchSim N)) : forall (f f' : Filterbank N) out,
  finely_align_and_recreate_patches pf nb rs ds w f l = (f', Ok out) ->
  Forall2 (fun old p => exists g g', realign_patch pf nb rs ds w g old = (g', Ok p)) l out.
Proof.
  induction l as [|old t IH]; intros f f' out; cbn [finely_align_and_recreate_patches].
  { intros [= _ <-]. constructor. }
  destruct (realign_patch pf nb rs ds w f old) as [fb1 r] eqn:E.
  destruct r as [p| |]; try discriminate.
  destruct (finely_align_and_recreate_patches pf nb rs ds w fb1 t) as [fb2 rest] eqn:E2.
  intros [= _ H]. inv_do H. injection Hk as <-. constructor; [eauto|]. eapply IH. rewrite E2, Hv. reflexivity.
Qed.
Lemma finely_len {N} pf nb rs ds w (l : list (PatchSim N)) f f' out :
  finely_align_and_recreate_patches pf nb rs ds w f l = (f', Ok out) -> List.length out = List.length l.
Proof. intros H. apply fine_each in H. symmetry. eapply F2_length; eauto. Qed.
Lemma fine_src {N} pf nb rs ds w (l : list (PatchSim N)) f f' out p :
  finely_align_and_recreate_patches pf nb rs ds w f l = (f', Ok out) -> In p out ->
  exists old g g', In old l /\ realign_patch pf nb rs ds w g old = (g', Ok p).
Proof.
  intros H. apply fine_each in H. induction H as [|o q l1 l2 (g & g' & E) F IH]; intros Hp; [destruct Hp|].
  destruct Hp as [<- |Hp]; [exists o, g, g'; split; [left; auto|auto]|]. destruct (IH Hp) as (o' & g1 & g1' & I1 & I2). exists o', g1, g1'. split; [right; auto|auto].
Qed.
Lemma find_len {N} pf (refs : list (mat N)) idx deg fd radius out : idx <> [] ->
  find_most_optimal_deg_patches pf refs idx deg fd radius = Ok out -> (Z.of_nat (List.length out) <= zlen idx)%Z.
Proof.
  intros Hne H. unfold find_most_optimal_deg_patches in H.
  do 3 (inv_do H; match goal with H2 : _ = Ok out |- _ => rename H2 into H end).
  destruct (Z.eqb_spec v1 0); [discriminate|].
  do 2 (inv_do H; match goal with H2 : _ = Ok out |- _ => rename H2 into H end).
  destruct v3 as [dp bt].
  do 6 (inv_do H; match goal with H2 : _ = Ok out |- _ => rename H2 into H end).
  apply backtrace_len in H. apply calc_max_pos in Hv1; auto. cbn [List.length] in H. lia.
Qed.
Lemma C41_all pf nb v ws (m m' : Manager RN) calls files a b (x : AudioSignal RN) r :
  new_manager nb v ws = Ok m -> (0 <= ws <= 2 ^ 20)%Z ->
  load_as_mono (files a) = Ok x -> load_as_mono (files b) = Ok x ->
  (1 <= sample_rate x)%Z -> (sig_len x <= 2 ^ 30)%Z ->
  run pf nb files (after_calls pf nb m calls) a b = (m', Ok r) ->
  fvnsim r = repeat 1 nb /\ vnsim r = 1 /\ fstdnsim r = repeat 0 nb /\
  (forall p, In p (patch_sims r) -> similarity p = 1 /\ freq_band_means p = repeat 1 nb /\ freq_band_stddevs p = repeat 0 nb) /\
  predict_quality (mg_mapper m) (repeat 1 nb) = Ok (moslqo r).
Proof.
  intros Hm Hws La Lb Hrate Hlen H.
  set (m1 := after_calls pf nb m calls) in *. destruct (after_same pf nb calls m) as (Sw & Cr & Mp & _). fold m1 in Sw, Cr, Mp.
  assert (Hsw : mg_search_window m = ws) by (unfold new_manager in Hm; destruct v as [u|[s|]]; cbn [bind] in Hm; try discriminate; inversion Hm; reflexivity).
  assert (Hps : creator_patch_size (mg_creator m) = 20%Z \/ creator_patch_size (mg_creator m) = 30%Z).
  { unfold new_manager in Hm. destruct v as [u|[s|]]; cbn [bind] in Hm; try discriminate; inversion Hm; auto. }
  pose proof H as H0. apply run_ok in H0. destruct H0 as (rs0 & ds0 & al0 & lag0 & f0 & A1 & A2 & _ & A4 & H0).
  assert (rs0 = x) by congruence. assert (ds0 = x) by congruence. subst rs0 ds0. clear A1 A2 A4.
  apply calculate_ok in H0. destruct H0 as (L1 & L2 & _ & _ & SH & NE & VN & (q & PQ & MQ) & _).
  assert (Hnb : (1 <= nb)%nat) by (destruct nb; [|lia]; destruct (fvnsim r); [discriminate VN|discriminate L1]).
  apply run_parts in H. destruct H as (rs & ds & al & lag & fb1 & fb2 & fb3 & rspec & dspec & rp & dp & idx & pts & info & H).
  cbv zeta in H. destruct H as (LA & LB & _ & GA & B1 & B2 & PR & CI & PT & FD & FA & ME & SD & _ & _).
  assert (rs = x) by congruence. assert (ds = x) by congruence. subst rs ds.
  rewrite Cr in CI, PT. set (ps := creator_patch_size (mg_creator m)) in *.
  set (w := new_window (sample_rate x) OVERLAP WINDOW_DURATION) in *.
  assert (W0 : (0 <= win_size w)%Z) by apply usize_pos.
  assert (Hh : (0 < hop_size w)%Z) by (apply build_inv in B1; assert (0 <= hop_size w)%Z by apply usize_pos; lia).
  assert (HW : (win_size w <= sig_len x)%Z) by (apply build_inv in B1; apply B1).
  pose proof (build_cols _ _ _ _ _ _ Hh B1) as C1. change (zlen (data_matrix x)) with (sig_len x) in C1.
  pose proof (prepare_shape _ _ _ _ PR) as ((Wr & R1 & K1 & _) & _).
  pose proof (build_shape _ _ _ _ _ _ B1) as (_ & Rn & _).
  destruct (patches_self ps _ _ _ ltac:(lia) PT) as [PL PS].
  pose proof (find_times _ _ _ _ _ _ _ FD) as (p0 & E0 & CP).
  assert (Hidx : idx <> []) by (destruct pts; [discriminate|]; destruct idx; [cbn in PL; lia|discriminate]).
  assert (Cc : (Z.of_nat (mcols (sp_data rp)) <= 1 + sig_len x /\ 20 <= Z.of_nat (mcols (sp_data rp)))%Z).
  { split.
    - rewrite K1, C1. pose proof (Z.div_le_upper_bound (sig_len x - win_size w) (hop_size w) (sig_len x)). nia.
    - destruct idx as [|i t]; [tauto|]. destruct (PS 0%nat ltac:(cbn; lia)) as (P1 & P2 & _). cbn [nth] in *. lia. }
  assert (L9 : (9 <= sig_len x)%Z) by lia.
  rewrite self_align in GA by lia.
  assert (Eal : x = al) by exact (f_equal (fun r : res (option (AudioSignal RN * R)) => match r with Ok (Some (y, _)) => y | _ => x end) GA).
  subst al. rewrite self_scale in *.
  assert (ED : rspec = dspec).
  { pose proof (build_min nb (mg_filterbank m1) x w) as BM. rewrite B1 in BM. cbn [fst] in BM. rewrite (build_same nb fb1 (mg_filterbank m1) x w BM), B1 in B2. congruence. }
  subst dspec. apply prepare_same in PR. subst dp.
  rewrite Sw, Hsw, wrap_i32_id in FD by lia.
  assert (SI : search_in pts idx (sp_data rp) ws (Z.to_nat ps)).
  { constructor; try (rewrite ?Z2Nat.id by lia; lia).
    - destruct pts; [discriminate|discriminate].
    - intros q0 Hq. apply In_nth_error in Hq as (k & Hk). assert (Hlt : (k < List.length idx)%nat) by (rewrite <- PL; apply nth_error_Some; congruence).
      destruct (PS k Hlt) as (_ & _ & E). rewrite E in Hk. injection Hk as <-. split; [apply patch_at_wf|]. cbn [patch_at mbuild mrows mcols]. auto.
    - intros i Hi. apply (In_nth _ _ 0%Z) in Hi as (k & Hk & <-). destruct (PS k Hk) as (P1 & P2 & _). rewrite Z2Nat.id by lia. nia. }
  pose proof (idx_sorted pf (mg_creator m) _ _ _ _ ltac:(lia) CI) as SO.
  destruct (find_self pf pts idx (sp_data rp) ws (Z.to_nat ps) SI) with (fd := calculate_frame_duration (nmul RN (nofZ RN (win_size w)) (win_overlap w)) (sample_rate x)) (out := info) as [PF PNE].
  { lia. }
  { intros k Hk. destruct (PS k Hk) as (P1 & P2 & P3). rewrite Z2Nat.id by lia. auto. }
  { apply sorted_nth. exact SO. }
  { exact FD. }
  rewrite R1, Rn in PF.
  pose proof (finely_perfect _ _ _ _ _ _ _ _ _ PF FA) as PP.
  assert (FV : fvnsim r = repeat 1 nb) by (eapply means_perfect; eauto).
  assert (VV : vnsim r = 1).
  { rewrite FV in VN. destruct nb as [|n]; [lia|].
    assert (MB : 1 <= mean_of (repeat 1 (S n)) <= 1).
    { apply mean_of_bound; [discriminate|]. apply Forall_forall. intros y Hy. apply repeat_spec in Hy. subst. lra. }
    assert (EV : mean_of (repeat 1 (S n)) = vnsim r).
    { assert (E : ndiv RN (nd_sum (N:=RN) (repeat 1 (S n))) (nofZ RN (@zlen R (repeat 1 (S n)))) = vnsim r) by exact (f_equal (fun o : option R => match o with Some z => z | None => 0 end) VN).
      rewrite <- E. unfold mean_of. rewrite INR_IZR_INZ. cbn [ndiv nofZ RN]. symmetry. apply (f_equal2 Rdiv (R_nd_sum (repeat 1 (S n))) eq_refl). }
    rewrite <- EV. lra. }
  split; [exact FV|]. split; [exact VV|]. split; [|split].
  - apply (stds_perfect pf (calculate_frame_duration (N:=RN) (nmul RN (nofZ RN (win_size w)) (win_overlap w)) (sample_rate x)) nb 34 (patch_sims r) (fvnsim r)); auto; [lia| |].
    + intros p Hp. destruct (fine_src _ _ _ _ _ _ _ _ _ _ FA Hp) as (old & g & g' & Io & RA).
      rewrite Forall_forall in CP. specialize (CP old Io).
      assert (P0 : Z.of_nat (mcols p0) = ps) by (apply patches_cols in PT; [|lia]; apply PT; eapply nth_error_In; eauto).
      rewrite P0 in CP.
      assert (CB := fun X Y => count_bound pf nb x x w g g' old p idx _ ps eq_refl Hrate W0 X ltac:(lia) Y CP RA).
      assert (0 <= frame_count (N:=RN) (frame_dur (win_size w) (sample_rate x)) p <= ps + 4)%Z as FC; [|clear - FC Hps; change (frame_count _ p) with (frame_count (N:=RN) (frame_dur (win_size w) (sample_rate x)) p); lia].
      apply CB; [lia|]. intros i Hi. apply (In_nth _ _ 0%Z) in Hi as (k & Hk & <-). destruct (PS k Hk) as (P1 & P2 & _). split; [lia|]. nia.
    + rewrite (finely_len _ _ _ _ _ _ _ _ _ FA).
      pose proof (find_len _ _ _ _ _ _ _ Hidx FD) as FL. assert (zlen idx <= Z.of_nat (mcols (sp_data rp)))%Z.
      { unfold zlen. apply (M_small pts idx (sp_data rp) ws (Z.to_nat ps) SI); [|apply sorted_nth; exact SO].
        intros k Hk. destruct (PS k Hk) as (P1 & P2 & P3). rewrite Z2Nat.id by lia. auto. }
      unfold usize_mod. lia.
  - rewrite Forall_forall in PP. exact PP.
  - rewrite MQ. unfold alter_for_similarity_extremes. rewrite Mp in PQ. rewrite FV in PQ. rewrite VV.
    assert (E : nltb RN 1 (nlit RN 15 2) = false). { cbn [nltb nlit RN]. apply Rltb_false. change (IZR 15 / IZR (10 ^ 2) <= 1). change (10 ^ 2)%Z with 100%Z. lra. }
    rewrite E. exact PQ.
Qed.
