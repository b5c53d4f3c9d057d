(** C48: the start frames, in exact arithmetic, and whole runs. *)
From Coq Require Import Reals Lra Lia Sorting.Sorted.
From Flocq Require Import Core.
From Verif Require Import Base Num Mat RNum M_Audio M_Align M_Spectro M_Patch M_Nsim M_Selector M_Visqol.
From Verif Require Import P_Base P_Mat P_R P_Level P_Audio P_Manager P_Score P_Patch Spec Spec2 Spec3 P_Conv P_Nsim P_Spectro P_Prep P_Dp P_Dp2 P_Dp3 P_Times P_Agg P_Run P_Xcorr P_Env P_Self P_Slice P_Same P_Same2 P_Total.
Open Scope R_scope.

(** ** Positions of the voice activity grid *)
Lemma loop_count {N : NumOps} L (l : list (num N)) : (1 <= L)%Z -> forall f rs, (zlen f < L)%Z ->
  zlen (vad_loop L f rs l) = (zlen rs + (zlen f + zlen l) / L)%Z.
Proof.
  intros HL. induction l as [|x l IH]; intros f rs Hf; cbn [vad_loop].
  { rewrite zlen_nil, Z.add_0_r, Z.div_small by (pose proof (zlen_nonneg f); lia). lia. }
  rewrite zlen_app, !zlen_cons, zlen_nil. pose proof (zlen_nonneg f). destruct (Z.eqb_spec (zlen f + (0 + 1)) L).
  - rewrite IH by (rewrite zlen_nil; lia). unfold process_chunk. rewrite zlen_app, zlen_cons, !zlen_nil.
    replace (zlen f + (zlen l + 1))%Z with (zlen l + 1 * L)%Z by lia. rewrite Z.div_add by lia. rewrite !Z.add_0_l. lia.
  - rewrite IH by (rewrite zlen_app, zlen_cons, zlen_nil; lia). rewrite zlen_app, zlen_cons, zlen_nil. do 2 f_equal. lia.
Qed.
Lemma results_count {N : NumOps} (rs vad : list (num N)) : get_vad_results rs = Ok vad -> zlen vad = Z.max 2 (zlen rs).
Proof.
  unfold get_vad_results, SILENT_CHUNK_COUNT. intros H. inv_do H. match type of Hk with Ok ?e = _ => assert (E : vad = e) by congruence end. rewrite E. apply mapM_length in Hv.
  rewrite zlen_app. unfold zlen at 1 2. rewrite repeat_length, Hv. unfold zrange. rewrite map_length, seq_length. pose proof (zlen_nonneg rs). lia.
Qed.
Lemma chunk_count {N : NumOps} n k : (1 <= n)%nat -> forall fuel (l : list (num N)), (List.length l <= k * n)%nat -> (List.length (chunks fuel n l) <= k)%nat.
Proof.
  intros Hn. induction k as [|k IH]; intros fuel l Hl.
  - destruct l; [destruct fuel; cbn; lia|cbn in Hl; lia].
  - destruct fuel; cbn [chunks]; [cbn; lia|]. destruct l as [|x l]; [cbn; lia|]. cbn [List.length]. apply le_n_S. apply IH. rewrite skipn_length. lia.
Qed.

Lemma collect_bounds {N : NumOps} ps (cs : list (list (num N))) : forall i x, (0 < ps)%Z -> In x (collect_active ps i cs) ->
  (i <= x)%Z /\ (x + ps <= i + ps * zlen cs)%Z.
Proof.
  induction cs as [|c t IH]; intros i x Hp; cbn [collect_active]; [intros []|]. rewrite zlen_cons. pose proof (zlen_nonneg t).
  destruct (nleb N _ _); [intros [<- |Hx]|intros Hx]; [nia| |]; apply IH in Hx; auto; lia.
Qed.
Lemma vad_range {N : NumOps} pf ps w (s : AudioSignal N) win idx : (2 <= ps <= 2 ^ 16)%Z -> (1 <= hop_size win)%Z -> (w * hop_size win <= sig_len s)%Z -> (sig_len s <= 2 ^ 44)%Z ->
  (ps / 2 - 1 + ps <= w)%Z -> vad_patch_indices pf ps w s win = Ok idx -> forall x, In x idx -> (ps / 2 - 1 <= x)%Z /\ (x + ps <= w)%Z.
Proof.
  intros Hps Hh Hw Hs Hpw H. unfold vad_patch_indices in H. cbv zeta in H.
  assert (P1 : (1 <= ps / 2)%Z) by (apply Z.div_le_lower_bound; lia).
  assert (W1 : (w <= 2 ^ 44)%Z) by nia. assert (H1 : (hop_size win <= 2 ^ 44)%Z) by nia.
  inv_do H. rewrite umul_ok in Hk by (unfold usize_mod; nia). cbn [bind] in Hk. rewrite usub_ok in Hk by lia. cbn [bind] in Hk.
  rewrite usub_ok in Hk by lia. cbn [bind] in Hk. unfold udiv in Hk. destruct (Z.eqb_spec ps 0); [lia|]. cbn [bind] in Hk.
  set (fp := (ps / 2 - 1)%Z) in *. set (pc := ((w - fp) / ps)%Z) in *.
  assert (Pc : (1 <= pc)%Z) by (apply Z.div_le_lower_bound; lia).
  assert (Pm : (ps * pc <= w - fp)%Z) by (apply Z.mul_div_le; lia).
  assert (B : (pc * (ps * hop_size win) <= (w - fp) * hop_size win)%Z) by nia.
  assert (B2 : (fp + pc * (ps * hop_size win) <= sig_len s)%Z) by nia.
  rewrite umul_ok in Hk by (unfold usize_mod; nia). cbn [bind] in Hk.
  inv_do Hk. inv_do Hk0. match type of Hk with Ok ?e = _ => assert (E : idx = e) by congruence end.
  unfold get_voice_activity in Hv1. rewrite uadd_ok in Hv1 by (unfold usize_mod; lia). cbn [bind] in Hv1.
  inv_do Hv1. inv_do Hk0. apply zslice_len in Hv2. apply results_count in Hk1.
  rewrite loop_count in Hk1 by (rewrite ?zlen_nil; lia). rewrite !(@zlen_nil Z), !(@zlen_nil (num N)), Hv2 in Hk1.
  replace (0 + (fp + pc * (ps * hop_size win) - fp))%Z with (pc * ps * hop_size win)%Z in Hk1 by ring. rewrite Z.div_mul in Hk1 by lia.
  assert (Hl : zlen v1 = (pc * ps)%Z) by nia.
  intros x Hx. rewrite E in Hx. apply collect_bounds in Hx; [|lia]. destruct Hx as [X1 X2]. split; [exact X1|].
  assert (CC : (zlen (chunks (List.length v1) (Z.to_nat ps) v1) <= pc)%Z).
  { unfold zlen in *. assert (List.length (chunks (List.length v1) (Z.to_nat ps) v1) <= Z.to_nat pc)%nat; [|lia]. apply chunk_count; nia. }
  pose proof (Z.mul_le_mono_nonneg_l _ _ ps ltac:(lia) CC). lia.
Qed.

(** ** Whole runs *)
Lemma second_start {N} pf cr (m : mat N) s w idx a : (2 <= creator_patch_size cr)%Z -> create_ref_patch_indices pf cr m s w = Ok idx ->
  (2 <= List.length idx)%nat -> (forall i, In i idx -> (a <= i)%Z) -> (a + 1 <= nth 1 idx 0)%Z.
Proof.
  intros Hp H HM Ha. apply idx_sorted in H; auto. pose proof (sorted_nth _ H 0%nat ltac:(lia)) as S. specialize (Ha (nth 0 idx 0%Z) ltac:(apply nth_In; lia)). lia.
Qed.
(** Length in frames against length in samples. *)
Lemma frames_bound L h c i ps : (1 <= h)%Z -> c = (1 + (L - 4 * h) / h)%Z -> (i + ps <= c)%Z -> ((i + ps + 3) * h <= L)%Z.
Proof. intros Hh -> H. pose proof (Z.mul_div_le (L - 4 * h) h ltac:(lia)). nia. Qed.

Lemma wide_total pf nb u ws (m : Manager RN) calls files a b (rs ds : AudioSignal RN) idx h :
  let L := sig_len rs in let D := sig_len ds in let frames := (1 + (L - 4 * h) / h)%Z in
  new_manager nb (Wideband u) ws = Ok m -> (0 <= ws <= 2 ^ 20)%Z -> (1 <= nb)%nat ->
  load_as_mono (files a) = Ok rs -> load_as_mono (files b) = Ok ds ->
  sample_rate rs = (50 * h)%Z -> sample_rate ds = (50 * h)%Z -> (1 <= h)%Z ->
  (47 * h <= L <= 2 ^ 30)%Z -> (D <= 2 ^ 30)%Z -> (4 * h + L / 2 <= D)%Z ->
  vad_patch_indices pf 30 frames rs (new_window (50 * h) OVERLAP WINDOW_DURATION) = Ok idx -> (2 <= List.length idx)%nat ->
  ((nth 1 idx 0 - 12) * h <= D - L / 2)%Z ->
  (L - (30 * ws + 30) * h <= D - L / 2)%Z ->
  exists m' r, run pf nb files (after_calls pf nb m calls) a b = (m', Ok r).
Proof.
  intros L D frames Hm Hws Hnb La Lb Ra Rb Hh HL HD HLD HI HM H2 H3.
  assert (Hc : mg_creator m = VadPatchCreator 30) by (unfold new_manager in Hm; cbn [bind] in Hm; inversion Hm; reflexivity).
  destruct (window_50 h ltac:(lia)) as (W1 & W2 & W3).
  assert (F44 : (44 <= frames)%Z). { unfold frames. assert (43 <= (L - 4 * h) / h)%Z by (apply Z.div_le_lower_bound; lia). lia. }
  assert (Hr : forall x, In x idx -> (14 <= x)%Z /\ (x + 30 <= frames)%Z).
  { apply (vad_range pf 30 frames rs (new_window (50 * h) OVERLAP WINDOW_DURATION)); rewrite ?W2; try lia; auto.
  }
  assert (SO : (15 <= nth 1 idx 0)%Z).
  { assert (E : create_ref_patch_indices pf (VadPatchCreator 30) (mbuild (N:=RN) 0 (Z.to_nat frames) (fun _ _ => 0)) rs (new_window (50 * h) OVERLAP WINDOW_DURATION) = Ok idx).
    { cbn [create_ref_patch_indices mbuild mcols]. rewrite Z2Nat.id; [exact HI|]. clear - F44. lia. }
    apply (second_start _ (VadPatchCreator 30) _ _ _ _ 14 ltac:(cbn; lia) E HM). intros i Hi. apply Hr. auto. }
  apply (run_total pf nb (Wideband u) ws m calls files a b rs ds idx h); rewrite ?Hc; auto; cbn [creator_patch_size]; fold L D; fold frames; try lia.
  - intros mt Hmt. cbn [create_ref_patch_indices]. rewrite Hmt. exact HI.
  - intros i Hi. destruct (Hr i Hi). lia.
  - change (30 / 2)%Z with 15%Z. lia.
  - intros i Hi. destruct (Hr i Hi). pose proof (frames_bound L h frames i 30 Hh eq_refl ltac:(lia)). lia.
  - intros fv _. unfold new_manager in Hm. cbn [bind] in Hm. inversion Hm. cbn [mg_mapper snd predict_quality]. eauto.
Qed.

Lemma full_total pf nb model ws (m : Manager RN) calls files a b (rs ds : AudioSignal RN) h :
  let L := sig_len rs in let D := sig_len ds in
  new_manager nb (Fullband (Some model)) ws = Ok m -> (0 <= ws <= 2 ^ 20)%Z -> (1 <= nb)%nat ->
  (forall fv, List.length fv = nb -> exists q, svr_predict model fv = Ok q) ->
  load_as_mono (files a) = Ok rs -> load_as_mono (files b) = Ok ds ->
  sample_rate rs = (50 * h)%Z -> sample_rate ds = (50 * h)%Z -> (1 <= h)%Z ->
  (54 * h <= L <= 2 ^ 30)%Z -> (D <= 2 ^ 30)%Z -> (22 * h + L / 2 <= D)%Z ->
  (L - (20 * ws + 20) * h <= D - L / 2)%Z ->
  exists m' r, run pf nb files (after_calls pf nb m calls) a b = (m', Ok r).
Proof.
  intros L D Hm Hws Hnb HS La Lb Ra Rb Hh HL HD HLD H3.
  assert (Hc : mg_creator m = ImagePatchCreator 20) by (unfold new_manager in Hm; cbn [bind] in Hm; inversion Hm; reflexivity).
  set (frames := (1 + (L - 4 * h) / h)%Z).
  assert (F51 : (51 <= frames)%Z). { unfold frames. assert (50 <= (L - 4 * h) / h)%Z by (apply Z.div_le_lower_bound; lia). lia. }
  destruct (C17_grid pf 20 frames ltac:(lia) ltac:(change (20 / 2)%Z with 10%Z; lia)) as (n & Hn & E & G & F). change (20 / 2)%Z with 10%Z in *.
  assert (N2 : (2 <= n)%Z) by (assert (0 <= 1 < n)%Z; [apply G; lia|lia]).
  set (idx := map (fun k => (10 - 1 + 20 * k)%Z) (zrange 0 n)) in *.
  assert (LI : List.length idx = Z.to_nat n) by (unfold idx, zrange; rewrite !map_length, seq_length; lia).
  assert (N1 : nth 1 idx 0%Z = 29%Z).
  { unfold idx. rewrite !zrange_cons by lia. reflexivity. }
  assert (Hr : forall x, In x idx -> (0 <= x)%Z /\ (x + 20 <= frames)%Z).
  { intros x Hx. apply in_map_iff in Hx as (k & <- & Hk). apply in_zrange in Hk. apply F. lia. }
  apply (run_total pf nb (Fullband (Some model)) ws m calls files a b rs ds idx h); rewrite ?Hc; auto; cbn [creator_patch_size]; fold L D; fold frames; try lia.
  - intros mt Hmt. cbn [create_ref_patch_indices]. rewrite Hmt. exact E.
  - intros i Hi. destruct (Hr i Hi). pose proof (frames_bound L h frames i 20 Hh eq_refl ltac:(lia)). lia.
  - intros fv Hf. unfold new_manager in Hm. cbn [bind] in Hm. inversion Hm. cbn [mg_mapper snd predict_quality]. destruct (HS fv Hf) as (q & ->). cbn [bind]. eauto.
Qed.
