(** C58: comparing a signal with a copy of itself in another volume or polarity,
    in exact arithmetic. *)
From Coq Require Import Reals Lra Lia Sorted.
From Flocq Require Import Core.
From Verif Require Import Base Num Mat RNum M_Audio M_Align M_Spectro M_Patch M_Nsim M_Selector M_Visqol.
From Verif Require Import P_Base P_Mat P_R P_Level P_Audio P_Manager P_Score P_Patch Spec Spec2 Spec3 P_Conv P_Nsim P_Spectro P_Vad P_Dp P_Dp2 P_Dp3 P_Times P_Agg P_Run P_Self P_Slice P_Same P_Same2 P_Volume P_Xcorr P_Env.
Open Scope R_scope.

(** ** A run whose two spectrograms agree *)
Lemma perfect_all pf nb v ws (m m' : Manager RN) calls files a b (x y al0 : AudioSignal RN) lag0 r :
  let w := new_window (sample_rate x) OVERLAP WINDOW_DURATION in
  let scaled := scale_to_match_sound_pressure_level x al0 in
  new_manager nb v ws = Ok m -> (0 <= ws <= 2 ^ 20)%Z ->
  load_as_mono (files a) = Ok x -> load_as_mono (files b) = Ok y ->
  globally_align pf x y = Ok (Some (al0, lag0)) ->
  (forall f1 f2 f1' f2' s1 s2, (0 < hop_size w)%Z -> fb_min_freq f1 = fb_min_freq f2 ->
     build nb f1 x w = (f1', Ok s1) -> build nb f2 scaled w = (f2', Ok s2) -> s1 = s2) ->
  sample_rate scaled = sample_rate x ->
  (1 <= sample_rate x)%Z -> (sig_len x <= 2 ^ 30)%Z ->
  run pf nb files (after_calls pf nb m calls) a b = (m', Ok r) ->
  fvnsim r = repeat 1 nb /\ vnsim r = 1 /\ fstdnsim r = repeat 0 nb /\
  (forall p, In p (patch_sims r) -> similarity p = 1 /\ freq_band_means p = repeat 1 nb /\ freq_band_stddevs p = repeat 0 nb) /\
  predict_quality (mg_mapper m) (repeat 1 nb) = Ok (moslqo r).
Proof.
  intros w0 scaled Hm Hws La Lb GA0 SAME Hsr Hrate Hlen H.
  set (m1 := after_calls pf nb m calls) in *. destruct (after_same pf nb calls m) as (Sw & Cr & Mp & _). fold m1 in Sw, Cr, Mp.
  assert (Hsw : mg_search_window m = ws) by (unfold new_manager in Hm; destruct v as [u|[s|]]; cbn [bind] in Hm; try discriminate; inversion Hm; reflexivity).
  assert (Hps : creator_patch_size (mg_creator m) = 20%Z \/ creator_patch_size (mg_creator m) = 30%Z).
  { unfold new_manager in Hm. destruct v as [u|[s|]]; cbn [bind] in Hm; try discriminate; inversion Hm; auto. }
  pose proof H as H0. apply run_ok in H0. destruct H0 as (rs0 & ds0 & al1 & lag1 & f0 & A1 & A2 & _ & A4 & H0).
  clear A1 A2 A4.
  apply calculate_ok in H0. destruct H0 as (L1 & L2 & _ & _ & SH & NE & VN & (q & PQ & MQ) & _).
  assert (Hnb : (1 <= nb)%nat) by (destruct nb; [|lia]; destruct (fvnsim r); [discriminate VN|discriminate L1]).
  apply run_parts in H. destruct H as (rs & ds & al & lag & fb1 & fb2 & fb3 & rspec & dspec & rp & dp & idx & pts & info & H).
  cbv zeta in H. destruct H as (LA & LB & _ & GA & B1 & B2 & PR & CI & PT & FD & FA & ME & SD & _ & _).
  assert (rs = x) by congruence. assert (ds = y) by congruence. subst rs ds.
  rewrite GA0 in GA. assert (Eal : al0 = al) by exact (f_equal (fun r : res (option (AudioSignal RN * R)) => match r with Ok (Some (y, _)) => y | _ => x end) GA). subst al. clear GA. fold scaled in B2, FA.
  rewrite Cr in CI, PT. set (ps := creator_patch_size (mg_creator m)) in *.
  set (w := new_window (sample_rate x) OVERLAP WINDOW_DURATION) in *.
  assert (W0 : (0 <= win_size w)%Z) by apply usize_pos.
  assert (Hh : (0 < hop_size w)%Z) by (apply build_inv in B1; assert (0 <= hop_size w)%Z by apply usize_pos; lia).
  assert (HW : (win_size w <= sig_len x)%Z) by (apply build_inv in B1; apply B1).
  pose proof (build_cols _ _ _ _ _ _ Hh B1) as C1. change (zlen (data_matrix x)) with (sig_len x) in C1.
  pose proof (prepare_shape _ _ _ _ PR) as ((Wr & R1 & K1 & _) & _).
  pose proof (build_shape _ _ _ _ _ _ B1) as (_ & Rn & _).
  destruct (patches_self ps _ _ _ ltac:(lia) PT) as [PL PS].
  pose proof (find_times _ _ _ _ _ _ _ FD) as (p0 & E0 & CP).
  assert (Hidx : idx <> []) by (destruct pts; [discriminate|]; destruct idx; [cbn in PL; lia|discriminate]).
  assert (Cc : (Z.of_nat (mcols (sp_data rp)) <= 1 + sig_len x /\ 20 <= Z.of_nat (mcols (sp_data rp)))%Z).
  { split.
    - rewrite K1, C1. pose proof (Z.div_le_upper_bound (sig_len x - win_size w) (hop_size w) (sig_len x)). nia.
    - destruct idx as [|i t]; [tauto|]. destruct (PS 0%nat ltac:(cbn; lia)) as (P1 & P2 & _). cbn [nth] in *. lia. }
  assert (L9 : (9 <= sig_len x)%Z) by lia.
  assert (ED : rspec = dspec).
  { pose proof (build_min nb (mg_filterbank m1) x w) as BM. rewrite B1 in BM. cbn [fst] in BM. exact (SAME (mg_filterbank m1) fb1 fb1 fb2 rspec dspec Hh (eq_sym BM) B1 B2). }
  subst dspec. apply prepare_same in PR. subst dp.
  rewrite Sw, Hsw, wrap_i32_id in FD by lia.
  assert (SI : search_in pts idx (sp_data rp) ws (Z.to_nat ps)).
  { constructor; try (rewrite ?Z2Nat.id by lia; lia).
    - destruct pts; [discriminate|discriminate].
    - intros q0 Hq. apply In_nth_error in Hq as (k & Hk). assert (Hlt : (k < List.length idx)%nat) by (rewrite <- PL; apply nth_error_Some; congruence).
      destruct (PS k Hlt) as (_ & _ & E). rewrite E in Hk. injection Hk as <-. split; [apply patch_at_wf|]. cbn [patch_at mbuild mrows mcols]. auto.
    - intros i Hi. apply (In_nth _ _ 0%Z) in Hi as (k & Hk & <-). destruct (PS k Hk) as (P1 & P2 & _). rewrite Z2Nat.id by lia. nia. }
  pose proof (idx_sorted pf (mg_creator m) _ _ _ _ ltac:(lia) CI) as SO.
  destruct (find_self pf pts idx (sp_data rp) ws (Z.to_nat ps) SI) with (fd := calculate_frame_duration (nmul RN (nofZ RN (win_size w)) (win_overlap w)) (sample_rate x)) (out := info) as [PF PNE].
  { lia. }
  { intros k Hk. destruct (PS k Hk) as (P1 & P2 & P3). rewrite Z2Nat.id by lia. auto. }
  { apply sorted_nth. exact SO. }
  { exact FD. }
  rewrite R1, Rn in PF.
  pose proof (finely_perfect _ _ _ _ _ _ _ _ _ PF FA) as PP.
  assert (FV : fvnsim r = repeat 1 nb) by (eapply means_perfect; eauto).
  assert (VV : vnsim r = 1).
  { rewrite FV in VN. destruct nb as [|n]; [lia|].
    assert (MB : 1 <= mean_of (repeat 1 (S n)) <= 1).
    { apply mean_of_bound; [discriminate|]. apply Forall_forall. intros z Hz. apply repeat_spec in Hz. subst. lra. }
    assert (EV : mean_of (repeat 1 (S n)) = vnsim r).
    { assert (E : ndiv RN (nd_sum (N:=RN) (repeat 1 (S n))) (nofZ RN (@zlen R (repeat 1 (S n)))) = vnsim r) by exact (f_equal (fun o : option R => match o with Some z => z | None => 0 end) VN).
      rewrite <- E. unfold mean_of. rewrite INR_IZR_INZ. cbn [ndiv nofZ RN]. symmetry. apply (f_equal2 Rdiv (R_nd_sum (repeat 1 (S n))) eq_refl). }
    rewrite <- EV. lra. }
  split; [exact FV|]. split; [exact VV|]. split; [|split].
  - apply (stds_perfect pf (calculate_frame_duration (N:=RN) (nmul RN (nofZ RN (win_size w)) (win_overlap w)) (sample_rate x)) nb 34 (patch_sims r) (fvnsim r)); auto; [lia| |].
    + intros p Hp. destruct (fine_src _ _ _ _ _ _ _ _ _ _ FA Hp) as (old & g & g' & Io & RA).
      rewrite Forall_forall in CP. specialize (CP old Io).
      assert (P0 : Z.of_nat (mcols p0) = ps) by (apply patches_cols in PT; [|lia]; apply PT; eapply nth_error_In; eauto).
      rewrite P0 in CP.
      assert (CB := fun X Y => count_bound pf nb x scaled w g g' old p idx _ ps (eq_sym Hsr) Hrate W0 X ltac:(lia) Y CP RA).
      assert (0 <= frame_count (N:=RN) (frame_dur (win_size w) (sample_rate x)) p <= ps + 4)%Z as FC; [|clear - FC Hps; change (frame_count _ p) with (frame_count (N:=RN) (frame_dur (win_size w) (sample_rate x)) p); lia].
      apply CB; [lia|]. intros i Hi. apply (In_nth _ _ 0%Z) in Hi as (k & Hk & <-). destruct (PS k Hk) as (P1 & P2 & _). split; [lia|]. nia.
    + rewrite (finely_len _ _ _ _ _ _ _ _ _ FA).
      pose proof (find_len _ _ _ _ _ _ _ Hidx FD) as FL. assert (zlen idx <= Z.of_nat (mcols (sp_data rp)))%Z.
      { unfold zlen. apply (M_small pts idx (sp_data rp) ws (Z.to_nat ps) SI); [|apply sorted_nth; exact SO].
        intros k Hk. destruct (PS k Hk) as (P1 & P2 & P3). rewrite Z2Nat.id by lia. auto. }
      unfold usize_mod. lia.
  - rewrite Forall_forall in PP. exact PP.
  - rewrite MQ. unfold alter_for_similarity_extremes. rewrite Mp in PQ. rewrite FV in PQ. rewrite VV.
    assert (E : nltb RN 1 (nlit RN 15 2) = false). { cbn [nltb nlit RN]. apply Rltb_false. change (IZR 15 / IZR (10 ^ 2) <= 1). change (10 ^ 2)%Z with 100%Z. lra. }
    rewrite E. exact PQ.
Qed.

(** ** Matching the level of a copy *)
Lemma rms_gain g l : rms (map (Rmult g) l) = Rabs g * rms l.
Proof.
  unfold rms. replace (map (Rmult g) l) with (map (fun x => x * g) l) by (apply map_ext; intros; ring).
  rewrite energy_scale, zlen_map. unfold Rdiv. rewrite Rmult_assoc. rewrite sqrt_mult_alt by nra.
  change (g * g) with (Rsqr g). rewrite sqrt_Rsqr_abs. reflexivity.
Qed.
Definition sign_of (g : R) : R := if Rle_dec 0 g then 1 else -1.
Lemma sign_abs g : Rabs (sign_of g) = 1.
Proof. unfold sign_of. destruct (Rle_dec 0 g); [apply Rabs_pos_eq|rewrite Rabs_left]; lra. Qed.
Lemma copy_scale l rate g rate' : g <> 0 ->
  scale_to_match_sound_pressure_level (@Build_AudioSignal RN l rate) (@Build_AudioSignal RN (map (Rmult g) l) rate') =
  @Build_AudioSignal RN (map (Rmult (sign_of g)) l) rate' \/
  Forall (fun x => x = 0) l.
Proof.
  intros Hg. destruct (not_silent_dec l) as [Hl|Hl]; [left|right; auto].
  assert (E : data_matrix (scale_to_match_sound_pressure_level (@Build_AudioSignal RN l rate) (@Build_AudioSignal RN (map (Rmult g) l) rate')) = map (Rmult (sign_of g)) l).
  { rewrite factor_R; cbn [data_matrix]; auto; [|apply not_silent_gain; auto].
    pose proof (rms_pos _ Hl) as P. etransitivity; [apply map_map|]. apply map_ext. intros x.
    etransitivity; [exact (f_equal (fun r => g * x * (rms l / r)) (rms_gain g l))|].
    unfold sign_of. destruct (Rle_dec 0 g).
    - rewrite Rabs_pos_eq by lra. cbn [num RN] in *. field. lra.
    - rewrite Rabs_left by lra. cbn [num RN] in *. field. lra. }
  unfold scale_to_match_sound_pressure_level in *. cbv zeta in *. cbn [data_matrix] in *. f_equal. exact E.
Qed.
(** A spectrogram ignores the sign of the signal. *)
Lemma build_sign nb l rate s w f1 f2 f1' f2' s1 s2 : Rabs s = 1 -> (0 < hop_size w)%Z -> (1 <= win_size w)%Z ->
  fb_min_freq f1 = fb_min_freq f2 ->
  build nb f1 (@Build_AudioSignal RN l rate) w = (f1', Ok s1) ->
  build nb f2 (@Build_AudioSignal RN (map (Rmult s) l) rate) w = (f2', Ok s2) -> s1 = s2.
Proof.
  intros Hs Hh Hw Hf B1 B2. destruct (C52_homogeneous nb f1 f2 f1' f2' l rate s w s1 s2 Hf Hw Hh B1 B2) as (C & R1 & R2 & G).
  pose proof (build_shape _ _ _ _ _ _ B1) as (W1 & _). pose proof (build_shape _ _ _ _ _ _ B2) as (W2 & _).
  apply build_inv in B1 as (_ & _ & _ & _ & _ & S1). apply build_inv in B2 as (_ & _ & _ & _ & _ & S2).
  cbn [sample_rate] in S1, S2. rewrite <- Hf in S2.
  assert (E : sp_data s1 = sp_data s2).
  { apply mat_ext; auto; [congruence|]. intros i j Hi Hj. rewrite R1 in Hi. pose proof (G i j Hi Hj) as E. rewrite Hs in E. etransitivity; [|symmetry; exact E]. symmetry. apply Rmult_1_l. }
  rewrite S1 in S2. destruct s1 as [d1 c1], s2 as [d2 c2]. cbn [sp_data center_freq_bands] in *. subst d2. f_equal. congruence.
Qed.

Lemma hop_win (w : AnalysisWindow RN) : (0 <= win_size w)%Z -> (0 < hop_size w)%Z -> (1 <= win_size w)%Z.
Proof.
  intros H Hh. destruct (Z.eq_dec (win_size w) 0) as [E|]; [|lia]. exfalso. unfold hop_size, as_usize in Hh. rewrite E in Hh.
  cbn [nmul nofZ ncast RN] in Hh. rewrite Rmult_0_l, (Ztrunc_IZR 0) in Hh. lia.
Qed.
Lemma C58_all pf nb v ws (m m' : Manager RN) calls files a b l rate (y : AudioSignal RN) g lag r :
  new_manager nb v ws = Ok m -> (0 <= ws <= 2 ^ 20)%Z -> g <> 0 ->
  load_as_mono (files a) = Ok (@Build_AudioSignal RN l rate) -> load_as_mono (files b) = Ok y ->
  globally_align pf (@Build_AudioSignal RN l rate) y = Ok (Some (@Build_AudioSignal RN (map (Rmult g) l) rate, lag)) ->
  (1 <= rate)%Z -> (zlen l <= 2 ^ 30)%Z ->
  run pf nb files (after_calls pf nb m calls) a b = (m', Ok r) ->
  fvnsim r = repeat 1 nb /\ vnsim r = 1 /\ fstdnsim r = repeat 0 nb /\
  (forall p, In p (patch_sims r) -> similarity p = 1 /\ freq_band_means p = repeat 1 nb /\ freq_band_stddevs p = repeat 0 nb) /\
  predict_quality (mg_mapper m) (repeat 1 nb) = Ok (moslqo r).
Proof.
  intros Hm Hws Hg La Lb GA Hrate Hlen H.
  set (x := @Build_AudioSignal RN l rate) in *.
  assert (SC : exists s, Rabs s = 1 /\ scale_to_match_sound_pressure_level x (@Build_AudioSignal RN (map (Rmult g) l) rate) = @Build_AudioSignal RN (map (Rmult s) l) rate).
  { destruct (copy_scale l rate g rate Hg) as [E|E].
    - exists (sign_of g). split; [apply sign_abs|exact E].
    - exists 1. split; [apply Rabs_R1|]. rewrite (silent_gain g l E), (silent_gain 1 l E). apply (self_scale x). }
  destruct SC as (s & Hs & SC).
  refine (perfect_all pf nb v ws m m' calls files a b x y _ lag r Hm Hws La Lb GA _ _ Hrate Hlen H).
  - rewrite SC. intros f1 f2 f1' f2' s1 s2 Hh Hf B1 B2. refine (build_sign nb l rate s _ f1 f2 f1' f2' s1 s2 Hs Hh _ Hf B1 B2).
    apply hop_win; auto. apply usize_pos.
  - rewrite SC. reflexivity.
Qed.

(** ** An inverted copy of a signal with an offset *)
Definition zat (l : list Z) (i : Z) : Z := if (i <? 0)%Z then 0%Z else nth (Z.to_nat i) l 0%Z.
Definition zcorr (l1 l2 : list Z) (k : Z) : Z :=
  fold_right Z.add 0%Z (map (fun n => zat l1 (Z.of_nat n + k) * zat l2 (Z.of_nat n))%Z (seq 0 (List.length l2))).
Lemma at0_Z l c i : at0 (map (fun z => IZR z / c) l) i = IZR (zat l i) / c.
Proof.
  unfold at0, zat. destruct (i <? 0)%Z; [unfold Rdiv; rewrite Rmult_0_l; reflexivity|].
  destruct (Nat.lt_ge_cases (Z.to_nat i) (List.length l)) as [H|H].
  - rewrite (nth_indep _ 0 (IZR 0 / c)) by (rewrite map_length; auto). apply (map_nth (fun z => IZR z / c)).
  - rewrite !nth_overflow by (rewrite ?map_length; auto). unfold Rdiv. rewrite Rmult_0_l. reflexivity.
Qed.
Lemma corr_Z l1 l2 c k : correlation (map (fun z => IZR z / c) l1) (map (fun z => IZR z / c) l2) k = IZR (zcorr l1 l2 k) / (c * c).
Proof.
  unfold correlation, zcorr. rewrite map_length. induction (seq 0 (List.length l2)) as [|n t IH]; cbn [map fold_right].
  - unfold Rdiv. rewrite Rmult_0_l. reflexivity.
  - rewrite Rsum_cons, IH, !at0_Z, plus_IZR, mult_IZR. unfold Rdiv. rewrite Rinv_mult. ring.
Qed.
(** Thirty-two samples that alternate between 3 and 1. *)
Definition zig : list R := List.concat (repeat [3; 1] 16).
Definition env_zig : list Z := List.concat (repeat [3999999; 4000001]%Z 16).
Definition env_zag : list Z := List.concat (repeat [1; -1]%Z 16).
Lemma zig_env pf : calculate_upper_env (N:=RN) pf zig = Ok (Some (map (fun z => IZR z / 1000000) env_zig)).
Proof.
  destruct (C15_pow2 pf zig 5) as (e & X & L & V); [lia|reflexivity|]. rewrite X. do 2 f_equal. change (num RN) with R in *.
  assert (M : mean_signal zig = 2) by (unfold mean_signal, zig; rewrite INR_IZR_INZ; cbn -[IZR Rdiv]; field). rewrite M in V.
  apply nth_ext with (d := 0) (d' := 0); [rewrite L; reflexivity|]. intros i Hi. rewrite L in Hi. rewrite V by auto.
  change (List.length zig) with 32%nat in Hi.
  do 32 (destruct i as [|i]; [cbn -[IZR Rdiv Rabs]; match goal with |- Rabs ?x + _ = _ => destruct (Rle_dec 0 x); [rewrite (Rabs_pos_eq x) by lra|rewrite (Rabs_left x) by lra] end; lra|]). lia.
Qed.
Lemma zag_env pf : calculate_upper_env (N:=RN) pf (map (Rmult (-1)) zig) = Ok (Some (map (fun z => IZR z / 1000000) env_zag)).
Proof.
  destruct (C15_pow2 pf (map (Rmult (-1)) zig) 5) as (e & X & L & V); [lia|reflexivity|]. etransitivity; [exact X|]. do 2 f_equal. change (num RN) with R in *.
  assert (M : mean_signal (map (Rmult (-1)) zig) = -2) by (unfold mean_signal, zig; rewrite INR_IZR_INZ; cbn -[IZR Rdiv]; field). rewrite M in V.
  apply nth_ext with (d := 0) (d' := 0); [rewrite L; reflexivity|]. intros i Hi. rewrite L in Hi. rewrite V by auto.
  change (List.length (map (Rmult (-1)) zig)) with 32%nat in Hi.
  do 32 (destruct i as [|i]; [cbn -[IZR Rdiv Rabs]; match goal with |- Rabs ?x + _ = _ => destruct (Rle_dec 0 x); [rewrite (Rabs_pos_eq x) by lra|rewrite (Rabs_left x) by lra] end; lra|]). lia.
Qed.
Lemma zig_best : forallb (fun n => let k := (Z.of_nat n - 31)%Z in (k =? 1)%Z || (Z.abs (zcorr env_zig env_zag k) <? Z.abs (zcorr env_zig env_zag 1))%Z) (seq 0 63) = true.
Proof. vm_compute. reflexivity. Qed.
Lemma zig_lag pf : calculate_best_lag (N:=RN) pf (map (fun z => IZR z / 1000000) env_zig) (map (fun z => IZR z / 1000000) env_zag) = Ok (Some 1%Z).
Proof.
  set (e1 := map _ env_zig). set (e2 := map _ env_zag).
  assert (LO : longest e1 e2 = 32%Z) by reflexivity.
  destruct (C13_all pf e1 e2) as (lag & E & Rg & M & _); [rewrite LO; lia|]. rewrite LO in *. etransitivity; [exact E|]. do 2 f_equal.
  destruct (Z.eq_dec lag 1) as [|NE]; auto. exfalso. specialize (M 1%Z ltac:(lia)).
  pose proof zig_best as B. rewrite forallb_forall in B. specialize (B (Z.to_nat (lag + 31)) ltac:(apply in_seq; lia)). cbv zeta in B.
  replace (Z.of_nat (Z.to_nat (lag + 31)) - 31)%Z with lag in B by lia. apply Bool.orb_prop in B as [B|B]; [apply Z.eqb_eq in B; auto|].
  apply Z.ltb_lt in B. unfold e1, e2 in M. rewrite !corr_Z in M. unfold Rdiv in M. rewrite !Rabs_mult in M.
  apply IZR_lt in B. rewrite !abs_IZR in B. set (q := Rabs (/ _)) in M. assert (0 < q) by (unfold q; apply Rabs_pos_lt, Rinv_neq_0_compat; lra). nra.
Qed.
Lemma zig_align pf rate : globally_align pf (@Build_AudioSignal RN zig rate) (@Build_AudioSignal RN (map (Rmult (-1)) zig) rate) =
  Ok (Some (@Build_AudioSignal RN (0 :: map (Rmult (-1)) zig) rate, 1 / IZR rate)).
Proof.
  unfold globally_align. cbn [data_matrix]. rewrite zig_env. cbn [bind].
  assert (Z : calculate_upper_env (N:=RN) pf (map (Rmult (-1)) zig) = _) by exact (zag_env pf). change (num RN) with R in *. rewrite Z. cbn [bind].
  pose proof (zig_lag pf) as Q. change (num RN) with R in *. rewrite Q. reflexivity.
Qed.
