(** Final forms of C30 - C33, C40. *)
From Coq Require Import Reals Lra Psatz.
From Flocq Require Import Core IEEE754.BinarySingleNaN.
From Verif Require Import Base Num Mat F64 RNum M_Audio M_Spectro Spec P_Base P_F64 P_Manager P_Spectro P_Compare P_R P_Win P_Bands.
Open Scope R_scope.

Lemma C40_all lm rate : (0 <= rate < 2 ^ 32)%Z ->
  let w := new_window (N:=F64 lm) rate OVERLAP WINDOW_DURATION in
  Rabs (IZR (win_size w) - 8 / 100 * IZR rate) < 1 / 2 /\ hop_size w = (win_size w / 4)%Z.
Proof.
  intros Hr w. pose proof (window_exact lm rate OVERLAP Hr) as W. fold w in W. split.
  - rewrite W. set (z := ((4 * rate + 25) / 50)%Z).
    assert (Hz : (50 * z <= 4 * rate + 24 /\ 4 * rate + 26 <= 50 * z + 50)%Z) by (unfold z; lia).
    assert (Hz1 : 50 * IZR z <= 4 * IZR rate + 24) by (rewrite <- !mult_IZR, <- plus_IZR; apply IZR_le; lia).
    assert (Hz2 : 4 * IZR rate + 26 <= 50 * IZR z + 50) by (rewrite <- !mult_IZR, <- !plus_IZR; apply IZR_le; lia).
    apply Rabs_def1; lra.
  - apply hop_quarter. fold w. rewrite W. lia.
Qed.
Lemma C30_few lm nb (fb : Filterbank (F64 lm)) s w :
  (forall found minimum, snd (build nb fb s w) = Err (TooFewSamples found minimum) ->
     found = sig_len s /\ minimum = win_size w /\ (sig_len s < win_size w)%Z) /\
  ((sig_len s < win_size w)%Z -> snd (build nb fb s w) = Err (TooFewSamples (sig_len s) (win_size w))).
Proof.
  split.
  - intros x y H. destruct (build nb fb s w) as [f' r] eqn:E. cbn [snd] in H. subst r.
    apply build_err in E. destruct E as [E1 E2]. injection E2 as -> ->. auto.
  - apply C30_too_few.
Qed.
Lemma C30_all lm nb (fb : Filterbank (F64 lm)) s :
  sane_libm lm -> (1 <= nb <= 1000)%nat -> fb_min_freq fb = MINIMUM_FREQ ->
  (44 <= sample_rate s < 2 ^ 32)%Z ->
  let w := new_window (N:=F64 lm) (sample_rate s) OVERLAP WINDOW_DURATION in
  (win_size w <= sig_len s)%Z ->
  exists sp, snd (build nb fb s w) = Ok sp /\
    mat_wf (sp_data sp) /\ mrows (sp_data sp) = nb /\
    Z.of_nat (mcols (sp_data sp)) = (1 + (sig_len s - win_size w) / hop_size w)%Z /\
    List.length (center_freq_bands sp) = nb.
Proof.
  intros SL Hn Hf Hr w Hw.
  pose proof (window_exact lm (sample_rate s) OVERLAP ltac:(lia)) as W. fold w in W.
  destruct (C40_all lm (sample_rate s) ltac:(lia)) as [_ H]. fold w in H.
  apply C30_F64; auto; try lia.
Qed.
Lemma C30_low lm nb (fb : Filterbank (F64 lm)) s :
  (0 <= sample_rate s < 44)%Z ->
  let w := new_window (N:=F64 lm) (sample_rate s) OVERLAP WINDOW_DURATION in
  (win_size w <= sig_len s)%Z -> snd (build nb fb s w) = Panic PDivZero.
Proof.
  intros Hr w Hw.
  pose proof (window_exact lm (sample_rate s) OVERLAP ltac:(lia)) as W. fold w in W.
  destruct (C40_all lm (sample_rate s) ltac:(lia)) as [_ H]. fold w in H.
  rewrite build_eq. cbv zeta. unfold sig_len in Hw.
  destruct (Z.ltb_spec (zlen (data_matrix s)) (win_size w)); [lia|].
  destruct (Z.eqb_spec (hop_size w) 0); [reflexivity|lia].
Qed.
Lemma C31_entries_f64 lm nb rate : exists rows : nat -> list f64,
  forall (fb fb' : Filterbank (F64 lm)) s w sp b j,
    fb_min_freq fb = MINIMUM_FREQ -> sample_rate s = rate ->
    (1 <= win_size w)%Z -> (0 < hop_size w)%Z ->
    build nb fb s w = (fb', Ok sp) -> (b < nb)%nat -> (j < mcols (sp_data sp))%nat ->
    let y := cascade (N:=F64 lm) (rows b) (frame (N:=F64 lm) (data_matrix s) (win_size w) (hop_size w) j) in
    zlen y = win_size w /\
    mget (sp_data sp) b j =
      Bsqrt mode_NE (Bdiv mode_NE (nd_sum (N:=F64 lm) (map (fun v => Bmult mode_NE v v) y)) (f64_ofZ (win_size w))).
Proof.
  exists (fun b => erb_row (N:=F64 lm) rate (nth (nb - 1 - b)
    (snd (make_filters (N:=F64 lm) nb rate MINIMUM_FREQ (f64_ofZ (max_freq nb rate)))) (f64_ofZ 0))).
  intros fb fb' s w sp b j E1 E2 Hw Hh B Hb Hj.
  pose proof (entry_cascade nb fb s w fb' sp b j Hh Hw B Hb Hj) as H. cbv zeta in H.
  rewrite E1, E2 in H. exact H.
Qed.
Lemma C31_nonneg lm nb (fb fb' : Filterbank (F64 lm)) s w sp b j :
  (1 <= win_size w)%Z -> (0 < hop_size w)%Z ->
  build nb fb s w = (fb', Ok sp) -> (b < nb)%nat -> (j < mcols (sp_data sp))%nat ->
  Bltb (mget (sp_data sp) b j) (f64_ofZ 0) = false.
Proof.
  intros Hw Hh B Hb Hj.
  destruct (entry_cascade nb fb s w fb' sp b j Hh Hw B Hb Hj) as [_ E]. rewrite E.
  apply Bsqrt_not_neg.
Qed.
Lemma C33_stream lm nc dc (x y : list f64) cond :
  List.length (fst (filter_signal (N:=F64 lm) nc dc x cond)) = List.length x /\
  filter_signal (N:=F64 lm) nc dc (x ++ y) cond =
    (fst (filter_signal (N:=F64 lm) nc dc x cond) ++
       fst (filter_signal (N:=F64 lm) nc dc y (snd (filter_signal (N:=F64 lm) nc dc x cond))),
     snd (filter_signal (N:=F64 lm) nc dc y (snd (filter_signal (N:=F64 lm) nc dc x cond)))).
Proof.
  split; [apply (filter_length (N:=F64 lm))|].
  etransitivity; [apply (filter_app (N:=F64 lm))|].
  destruct (filter_signal nc dc x cond) as [ya ca]. cbn [fst snd].
  destruct (filter_signal nc dc y ca) as [yb cb]. reflexivity.
Qed.
Lemma lin_comb a b u : forall v, lin a b u v = map (fun p => a * fst p + b * snd p) (combine u v).
Proof. induction u as [|x u IH]; intros [|y v]; cbn [lin combine map fst snd]; auto. f_equal. auto. Qed.
Lemma C33_lin nc dc a b (x x' : list R) c0 c1 c0' c1' :
  List.length x = List.length x' ->
  let comb u v := map (fun p => a * fst p + b * snd p) (combine u v) in
  fst (filter_signal (N:=RN) nc dc (comb x x') (a * c0 + b * c0', a * c1 + b * c1')) =
  comb (fst (filter_signal (N:=RN) nc dc x (c0, c1))) (fst (filter_signal (N:=RN) nc dc x' (c0', c1'))).
Proof. intros H comb. unfold comb. rewrite <- !lin_comb. apply filter_linear. auto. Qed.
Lemma C32_ex : exists fb' sp,
  let s := @Build_AudioSignal RN (repeat 1 8) 16000 in
  let w := @Build_AnalysisWindow RN 4 (1 / 4) in
  build 21 (new_filterbank 21 (MINIMUM_FREQ (N:=RN))) s w = (fb', Ok sp) /\
  (50 < Rmin (IZR (if Nat.eqb 21 21 then 8000 else sample_rate s / 2)) (IZR (sample_rate s) / 2)).
Proof.
  set (s := @Build_AudioSignal RN (repeat 1 8) 16000). set (w := @Build_AnalysisWindow RN 4 (1 / 4)).
  assert (Hh : hop_size w = 1%Z).
  { unfold hop_size, as_usize. cbn [RN ncast nmul nofZ w win_size win_overlap].
    replace (4 * (1 / 4)) with (IZR 1) by lra. rewrite Ztrunc_IZR. reflexivity. }
  destruct (C30_R 21 (new_filterbank 21 (MINIMUM_FREQ (N:=RN))) s w) as (sp & E & _).
  - cbn. lia.
  - rewrite Hh. lia.
  - cbn. lia.
  - destruct (build 21 (new_filterbank 21 MINIMUM_FREQ) s w) as [fb' r] eqn:B. cbn [snd] in E. subst r.
    exists fb', sp. split; auto. cbn [Nat.eqb sample_rate s]. apply Rmin_glb_lt; lra.
Qed.
