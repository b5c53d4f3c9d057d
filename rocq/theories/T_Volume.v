(** C52: the volume of the degraded recording, in exact arithmetic. *)
From Coq Require Import Reals Lra Lia String.
From Verif Require Import Base Num Mat RNum M_Audio M_Align M_Spectro M_Patch M_Nsim M_Visqol Spec Spec3 P_Base P_R P_Run P_Xcorr P_Env P_Self P_Total3 P_Volume T_Same.
Open Scope R_scope.

(** C52: once aligned, multiplying the degraded signal by a positive number
    changes nothing of the outcome; *)
Theorem C52_similarity_ignores_volume : forall pf nb (rs : AudioSignal RN) l rate g fb w creator mapper sw,
  0 < g -> not_silent (data_matrix rs) ->
  calculate_similarity pf nb rs (@Build_AudioSignal RN (map (Rmult g) l) rate) fb w creator mapper sw =
  calculate_similarity pf nb rs (@Build_AudioSignal RN l rate) fb w creator mapper sw.
Proof. exact similarity_gain'. Qed.
Print Assumptions C52_similarity_ignores_volume.

(** ... so two runs on recordings that differ in volume only have the same outcome
    if they are aligned with the same lag. *)
Theorem C52_run_ignores_volume : forall pf nb (m : Manager RN) files a b b' (rs : AudioSignal RN) l rate g al al' lag,
  0 < g -> (1 <= rate)%Z -> load_as_mono (files a) = Ok rs ->
  load_as_mono (files b) = Ok (@Build_AudioSignal RN l rate) ->
  load_as_mono (files b') = Ok (@Build_AudioSignal RN (map (Rmult g) l) rate) ->
  globally_align pf rs (@Build_AudioSignal RN l rate) = Ok (Some (al, lag)) ->
  globally_align pf rs (@Build_AudioSignal RN (map (Rmult g) l) rate) = Ok (Some (al', lag)) ->
  not_silent (data_matrix rs) ->
  run pf nb files m a b' = run pf nb files m a b.
Proof. exact C52_run. Qed.
Print Assumptions C52_run_ignores_volume.

(** A spectrogram is proportional to the signal and ignores its sign. *)
Theorem C52_spectrogram_is_homogeneous : forall nb (f1 f2 f1' f2' : Filterbank RN) l rate g w sp1 sp2,
  fb_min_freq f1 = fb_min_freq f2 -> (1 <= win_size w)%Z -> (0 < hop_size w)%Z ->
  build nb f1 (@Build_AudioSignal RN l rate) w = (f1', Ok sp1) ->
  build nb f2 (@Build_AudioSignal RN (map (Rmult g) l) rate) w = (f2', Ok sp2) ->
  mcols (sp_data sp1) = mcols (sp_data sp2) /\ mrows (sp_data sp1) = nb /\ mrows (sp_data sp2) = nb /\
  forall b j, (b < nb)%nat -> (j < mcols (sp_data sp1))%nat ->
    mget (sp_data sp2) b j = Rabs g * mget (sp_data sp1) b j.
Proof. exact C52_homogeneous. Qed.
Print Assumptions C52_spectrogram_is_homogeneous.

(** A constant signal in two volumes. *)
Definition flat_file (v : Z) : wav := WavOk 1 50 16 (map Some (repeat v 120)).
Definition flat_world (p : string) : wav :=
  if (p =? "ref.wav")%string then flat_file 16384 else if (p =? "half.wav")%string then flat_file 8192 else WavBad 2.
Definition flat_signal (v : R) : AudioSignal RN := @Build_AudioSignal RN (repeat v 120) 50.
Lemma repeat_map {A B} (f : A -> B) x n : map f (repeat x n) = repeat (f x) n.
Proof. induction n as [|n IH]; cbn [repeat map]; congruence. Qed.
Lemma flat_load v : (-32768 <= v <= 32767)%Z -> load_as_mono (N:=RN) (flat_file v) = Ok (flat_signal (IZR v / 32767)).
Proof.
  intros Hv. etransitivity; [apply load_mono; apply Forall_forall; intros z Hz; apply repeat_spec in Hz; lia|].
  reflexivity.
Qed.
Lemma mean_flat v n : (0 < n)%nat -> mean_signal (repeat v n) = v.
Proof. intros H. unfold mean_signal. rewrite repeat_length, Rsum_const. field. apply not_0_INR. lia. Qed.
Lemma nth_flat v n i : (i < n)%nat -> nth i (repeat v n) 0 = v.
Proof. revert i. induction n as [|n IH]; intros [|i] H; try lia; auto. cbn [repeat nth]. apply IH. lia. Qed.
Lemma flat_env pf v : calculate_upper_env (N:=RN) pf (repeat v 120) = Ok (Some (repeat (v + 1 / 1000000) 120)).
Proof.
  destruct (C15_all pf (repeat v 120)) as (p & env & _ & E & Le & V); [unfold zlen; rewrite repeat_length; lia|].
  change (num RN) with R in *. rewrite repeat_length in *. etransitivity; [exact E|]. do 2 f_equal. apply (nth_ext _ _ 0 0); [rewrite repeat_length; exact Le|].
  intros i Hi. assert (Hi' : (i < 120)%nat) by (rewrite Le in Hi; exact Hi).
  rewrite V by auto. rewrite mean_flat by lia.
  assert (C : forall a, (a < 120)%nat -> centred (repeat v 120) a = 0) by (intros a Ha; unfold centred; rewrite mean_flat, nth_flat by lia; ring).
  assert (M : middle_bin (Z.max p 32) (repeat v 120) i = 0).
  { unfold middle_bin. rewrite Rsum_0; [unfold Rdiv; ring|]. apply Forall_forall. intros x Hx. apply in_map_iff in Hx as (a & <- & Ha).
    apply in_seq in Ha. rewrite repeat_length in Ha. rewrite C by lia. ring. }
  rewrite M, C by auto. rewrite nth_flat by auto. replace (2 * (0 - _ * 0) - 1 / 1000000) with (- (1 / 1000000)) by ring.
  rewrite Rabs_Ropp, Rabs_pos_eq by lra. ring.
Qed.
Lemma at0_flat_le a n i : 0 <= a -> 0 <= at0 (repeat a n) i <= a.
Proof.
  intros Ha. unfold at0. destruct (i <? 0)%Z; [lra|]. destruct (Nat.lt_ge_cases (Z.to_nat i) n); [rewrite nth_flat by auto; lra|].
  rewrite nth_overflow by (rewrite repeat_length; auto). lra.
Qed.
Lemma Rsum_bound (f : nat -> R) M l : (forall k, In k l -> f k <= M) -> Rsum (map f l) <= INR (List.length l) * M.
Proof.
  induction l as [|x t IH]; intros H; [cbn; lra|]. cbn [map]. rewrite Rsum_cons. cbn [List.length]. rewrite S_INR.
  pose proof (H x (or_introl eq_refl)). pose proof (IH (fun k Hk => H k (or_intror Hk))). lra.
Qed.
Lemma flat_corr a b k : 0 < a -> 0 < b -> k <> 0%Z -> 0 <= correlation (repeat a 120) (repeat b 120) k < correlation (repeat a 120) (repeat b 120) 0.
Proof.
  intros Ha Hb Hk. pose proof (Rmult_lt_0_compat _ _ Ha Hb) as Hab.
  assert (T : forall n d, (n < 120)%nat -> at0 (repeat a 120) (Z.of_nat n + d) * at0 (repeat b 120) (Z.of_nat n) <= a * b).
  { intros n d Hn. apply Rmult_le_compat; try (apply at0_flat_le; lra). }
  assert (P : forall n d, 0 <= at0 (repeat a 120) (Z.of_nat n + d) * at0 (repeat b 120) (Z.of_nat n)).
  { intros n d. apply Rmult_le_pos; apply at0_flat_le; lra. }
  unfold correlation. rewrite repeat_length. split.
  - apply Rsum_nonneg. apply Forall_forall. intros x Hx. apply in_map_iff in Hx as (n & <- & _). apply P.
  - assert (E0 : Rsum (map (fun n => at0 (repeat a 120) (Z.of_nat n + 0) * at0 (repeat b 120) (Z.of_nat n)) (seq 0 120)) = 120 * (a * b)).
    { rewrite (map_ext_in _ (fun _ => a * b)); [rewrite Rsum_map_const, seq_length; replace (INR 120) with 120 by (rewrite INR_IZR_INZ; reflexivity); ring|].
      intros n Hn. apply in_seq in Hn. unfold at0. rewrite Z.add_0_r. destruct (Z.ltb_spec (Z.of_nat n) 0); [lia|]. rewrite Nat2Z.id, !nth_flat by lia. reflexivity. }
    rewrite E0. assert (I119 : INR 119 = 119) by (rewrite INR_IZR_INZ; reflexivity).
    destruct (Z_lt_le_dec k 0).
    + change (seq 0 120) with (0%nat :: seq 1 119). cbn [map]. rewrite Rsum_cons.
      replace (at0 (repeat a 120) (Z.of_nat 0 + k)) with 0 by (unfold at0; destruct (Z.ltb_spec (Z.of_nat 0 + k) 0); [auto|lia]).
      pose proof (Rsum_bound (fun n => at0 (repeat a 120) (Z.of_nat n + k) * at0 (repeat b 120) (Z.of_nat n)) (a * b) (seq 1 119)) as B.
      rewrite seq_length, I119 in B. specialize (B ltac:(intros n Hn; apply in_seq in Hn; apply T; lia)). lra.
    + change 120%nat with (S 119) at 3. rewrite seq_S, map_app, Rsum_app. cbn [map]. change (0 + 119)%nat with 119%nat.
      replace (at0 (repeat a 120) (Z.of_nat 119 + k)) with 0 by (symmetry; apply at0_out; right; unfold zlen; rewrite repeat_length; lia).
      rewrite Rsum_cons. replace (Rsum []) with 0 by reflexivity.
      pose proof (Rsum_bound (fun n => at0 (repeat a 120) (Z.of_nat n + k) * at0 (repeat b 120) (Z.of_nat n)) (a * b) (seq 0 119)) as B.
      rewrite seq_length, I119 in B. specialize (B ltac:(intros n Hn; apply in_seq in Hn; apply T; lia)). lra.
Qed.
Lemma flat_align pf v u : 0 < v -> 0 < u -> globally_align pf (flat_signal v) (flat_signal u) = Ok (Some (flat_signal u, 0)).
Proof.
  intros Hv Hu. unfold globally_align, flat_signal. cbn [data_matrix]. change (num RN) with R. rewrite !flat_env. cbn [bind].
  set (a := v + _). set (b := u + _). assert (0 < a) by (unfold a; lra). assert (0 < b) by (unfold b; lra).
  assert (L : longest (repeat a 120) (repeat b 120) = 120%Z) by (unfold longest, zlen; rewrite !repeat_length; reflexivity).
  destruct (C13_all pf (repeat a 120) (repeat b 120)) as (lag & E & Hr & M & _); [rewrite L; lia|]. rewrite L in *.
  assert (E' : calculate_best_lag (N:=RN) pf (repeat a 120) (repeat b 120) = Ok (Some lag)) by exact E.
  rewrite E'. cbn [bind]. assert (lag = 0%Z) as ->; [|reflexivity].
  destruct (Z.eq_dec lag 0) as [|N0]; auto. exfalso. specialize (M 0%Z ltac:(lia)).
  destruct (flat_corr a b lag) as [A B]; auto. rewrite !Rabs_pos_eq in M; lra.
Qed.
Lemma flat_half : flat_signal (8192 / 32767) = @Build_AudioSignal RN (map (Rmult (1 / 2)) (repeat (16384 / 32767) 120)) 50.
Proof. unfold flat_signal. f_equal. change (num RN) with R. rewrite repeat_map. f_equal. field. Qed.

(** The two runs succeed with the same result. *)
Example C52_example : forall pf, exists m m' r, new_manager (N:=RN) 32 (Fullband (Some flat_model)) 60 = Ok m /\
  run pf 32 flat_world m "ref.wav" "ref.wav" = (m', Ok r) /\ run pf 32 flat_world m "ref.wav" "half.wav" = (m', Ok r).
Proof.
  intros pf. pose (m := match new_manager (N:=RN) 32 (Fullband (Some flat_model)) 60 with Ok m => m | _ => {| mg_search_window := 0; mg_creator := VadPatchCreator 0; mg_mapper := SpeechMapper false; mg_filterbank := new_filterbank (N:=RN) 0 0 |} end).
  exists m.
  assert (Lr : load_as_mono (N:=RN) (flat_world "ref.wav") = Ok (flat_signal (16384 / 32767))) by (apply flat_load; lia).
  assert (Lh : load_as_mono (N:=RN) (flat_world "half.wav") = Ok (flat_signal (8192 / 32767))) by (apply flat_load; lia).
  assert (S : sig_len (flat_signal (16384 / 32767)) = 120%Z) by (unfold sig_len, zlen, flat_signal; cbn [data_matrix]; rewrite repeat_length; reflexivity).
  destruct (C48_fullband_succeeds pf 32 flat_model 60 m [] flat_world "ref.wav" "ref.wav" (flat_signal (16384 / 32767)) (flat_signal (16384 / 32767)) 1) as (m' & r & H);
    rewrite ?S; try reflexivity; try lia; try exact Lr.
  { intros fv Hf. exists 3. unfold svr_predict. cbn [svr_features flat_model svr_value]. unfold zlen. rewrite Hf. reflexivity. }
  exists m', r. split; [reflexivity|]. cbn [after_calls] in H. split; [exact H|].
  rewrite flat_half in Lh.
  etransitivity; [|exact H].
  apply (C52_run_ignores_volume pf 32 _ flat_world "ref.wav" "ref.wav" "half.wav" (flat_signal (16384 / 32767)) (repeat (16384 / 32767) 120) 50 (1 / 2)
    (flat_signal (16384 / 32767)) (flat_signal (8192 / 32767)) 0); try lra; try lia; try exact Lr; try exact Lh.
  - apply flat_align; lra.
  - etransitivity; [|apply (flat_align pf (16384 / 32767) (8192 / 32767)); lra]. f_equal. symmetry. exact flat_half.
  - exists (16384 / 32767). split; [left; reflexivity|lra].
Qed.

Example C52_homogeneous_example : exists f1' f2' sp1 sp2,
  let w := @Build_AnalysisWindow RN 4 (1 / 4) in
  let f := new_filterbank 21 (MINIMUM_FREQ (N:=RN)) in
  build 21 f (@Build_AudioSignal RN [1; 2; 3; 4; 5] 50) w = (f1', Ok sp1) /\
  build 21 f (@Build_AudioSignal RN (map (Rmult (-3)) [1; 2; 3; 4; 5]) 50) w = (f2', Ok sp2) /\
  hop_size w = 1%Z.
Proof.
  set (w := @Build_AnalysisWindow RN 4 (1 / 4)). set (f := new_filterbank 21 (MINIMUM_FREQ (N:=RN))).
  assert (Hh : hop_size w = 1%Z).
  { unfold hop_size, as_usize. cbn [w win_size win_overlap ncast nmul nofZ RN]. replace (4 * (1 / 4)) with (IZR 1) by field. rewrite Flocq.Core.Raux.Ztrunc_IZR. reflexivity. }
  assert (G : forall l, List.length l = 5%nat -> exists f' sp, build 21 f (@Build_AudioSignal RN l 50) w = (f', Ok sp)).
  { intros l Hl. destruct (C30_R 21 f (@Build_AudioSignal RN l 50) w) as (sp & H & _).
    - cbn. lia.
    - rewrite Hh. lia.
    - unfold zlen. cbn [data_matrix win_size w]. rewrite Hl. lia.
    - destruct (build 21 f _ w) as [f' x]. cbn [snd] in H. subst x. eauto. }
  destruct (G [1; 2; 3; 4; 5] eq_refl) as (f1' & sp1 & B1). destruct (G (map (Rmult (-3)) [1; 2; 3; 4; 5]) eq_refl) as (f2' & sp2 & B2).
  exists f1', f2', sp1, sp2. auto.
Qed.
