(** Which filter produces which row, and the order of the centre frequencies. *)
From Coq Require Import Reals Lra Psatz.
From Verif Require Import Base Num Mat RNum M_Audio M_Spectro P_Base P_Mat P_Spectro P_Score P_R Spec.

Section Gen.
Context {N : NumOps}.
Notation T := (num N).
Lemma apply_band_cascade nb rate (minf : T) x b : (b < nb)%nat ->
  let cfs := snd (make_filters nb rate minf (nofZ N (max_freq nb rate))) in
  exists e, apply_band (bank nb rate minf) x (Z.of_nat b) =
    Ok (cascade (erb_row rate (nth (nb - 1 - b) cfs (nofZ N 0))) x, e).
Proof.
  intros Hb cfs. unfold apply_band.
  set (row := erb_row rate (nth (nb - 1 - b) cfs (nofZ N 0))).
  assert (L : List.length cfs = nb).
  { unfold cfs, make_filters. cbv zeta. cbn [snd]. unfold calculate_uniform_center_freqs. cbv zeta.
    rewrite map_length, seq_length. auto. }
  assert (R : fst (make_filters nb rate minf (nofZ N (max_freq nb rate))) = map (erb_row rate) cfs) by reflexivity.
  assert (G : forall c, (c < 10)%nat -> coeff (bank nb rate minf) c (Z.of_nat b) = Ok (nth c row (nofZ N 0))).
  { intros c Hc. unfold coeff, bank. cbn [fb_coeffs]. rewrite nth_map_seq by auto. rewrite R.
    rewrite (zget_in _ _ (nofZ N 0)) by (rewrite zlen_map; unfold zlen; rewrite rev_length, map_length, L; lia).
    rewrite Nat2Z.id. f_equal.
    rewrite (nth_indep _ _ (nth c (erb_row rate (nofZ N 0)) (nofZ N 0))) by (rewrite map_length, rev_length, map_length, L; auto).
    rewrite (map_nth (fun r => nth c r (nofZ N 0))). f_equal.
    rewrite rev_nth by (rewrite map_length, L; auto). rewrite map_length, L.
    rewrite map_nth. unfold row. do 2 f_equal. lia. }
  assert (Z0 : forall p, zget (repeat p nb) (Z.of_nat b) = Ok (p : T * T)).
  { intros p. rewrite (zget_in _ _ p) by (rewrite zlen_repeat; lia). rewrite Nat2Z.id. f_equal.
    apply nth_error_nth, repeat_nth_error. auto. }
  rewrite !G by lia. cbn [bind]. unfold bank. cbn [fb_cond1 fb_cond2 fb_cond3 fb_cond4]. rewrite !Z0. cbn [bind].
  unfold cascade.
  destruct (filter_signal _ _ x _) as [y1 e1]. cbn [fst].
  destruct (filter_signal _ _ y1 _) as [y2 e2]. cbn [fst].
  destruct (filter_signal _ _ y2 _) as [y3 e3]. cbn [fst].
  destruct (filter_signal _ _ y3 _) as [y4 e4]. cbn [fst].
  eexists. reflexivity.
Qed.
Lemma entry_cascade nb (f : Filterbank N) s w f' sp b j :
  (0 < hop_size w)%Z -> (1 <= win_size w)%Z ->
  build nb f s w = (f', Ok sp) -> (b < nb)%nat -> (j < mcols (sp_data sp))%nat ->
  let cfs := snd (make_filters nb (sample_rate s) (fb_min_freq f) (nofZ N (max_freq nb (sample_rate s)))) in
  let y := cascade (erb_row (sample_rate s) (nth (nb - 1 - b) cfs (nofZ N 0)))
             (frame (data_matrix s) (win_size w) (hop_size w) j) in
  zlen y = win_size w /\
  mget (sp_data sp) b j = nsqrt N (ndiv N (nd_sum (map (fun v => nmul N v v) y)) (nofZ N (win_size w))).
Proof.
  intros H1 H2 H3 H4 H5 cfs y. destruct (C31_entry nb f s w f' sp b j H1 H2 H3 H4 H5) as (x & y' & e & Ex & A & B & C).
  destruct (apply_band_cascade nb (sample_rate s) (fb_min_freq f) x b H4) as [e' E].
  assert (Ok (y, e') = Ok (y', e)) as [= Y _].
  { etransitivity; [|exact A]. symmetry. unfold y, frame. rewrite <- Ex. exact E. }
  rewrite Y. auto.
Qed.
End Gen.

Section Rbands.
Open Scope R_scope.
Notation N := RN.

(** Decreasing centre frequencies are sorted by reversing. *)
Fixpoint dec_from (x : R) (l : list R) : Prop :=
  match l with [] => True | y :: t => y < x /\ dec_from y t end.
Lemma insert_last x l : Forall (fun y => y < x) l -> insert_num (N:=N) x l = l ++ [x].
Proof.
  intros H. induction H as [|y l Hy H IH]; [reflexivity|]. cbn [insert_num app].
  cbn [RN nleb]. destruct (Rleb x y) eqn:E; [apply Rleb_true in E; lra|]. f_equal. exact IH.
Qed.
Lemma sort_dec (l : list R) : (forall i j, (i < j < List.length l)%nat -> nth j l 0 < nth i l 0) ->
  fold_right (insert_num (N:=N)) [] l = rev l.
Proof.
  induction l as [|x l IH]; intros H; [reflexivity|]. cbn [fold_right rev]. rewrite IH.
  - apply insert_last. apply Forall_forall. intros y Hy. apply in_rev in Hy.
    apply (In_nth _ _ 0) in Hy. destruct Hy as (k & Hk & <-).
    apply (H 0%nat (S k)). cbn [List.length]. lia.
  - intros i j Hij. apply (H (S i) (S j)). cbn [List.length]. lia.
Qed.

Definition qR : R := 926449 / 100000 * (247 / 10).
Lemma qR_pos : 0 < qR. Proof. unfold qR. lra. Qed.
Lemma cf_R nb (low high : R) : calculate_uniform_center_freqs (N:=N) nb low high =
  map (fun i => - qR + exp ((INR i + 1) * ((- ln (high + qR) + ln (low + qR)) / INR nb)) * (high + qR)) (seq 0 nb).
Proof.
  unfold calculate_uniform_center_freqs. cbv zeta. apply map_ext. intros i.
  cbn [RN nofZ nadd nsub nmul ndiv nneg nexp nln nlit EAR_Q MIN_BW]. unfold EAR_Q, MIN_BW. cbn [RN nlit].
  change (IZR (10 ^ 5)) with 100000. change (IZR (10 ^ 1)) with 10. fold qR. rewrite <- !INR_IZR_INZ. reflexivity.
Qed.
Section F.
Variables (nb : nat) (low high : R).
Hypothesis (Hn : (1 <= nb)%nat) (Hl : 0 <= low) (Hh : low < high).
Let e := (- ln (high + qR) + ln (low + qR)) / INR nb.
Let cf i := - qR + exp ((INR i + 1) * e) * (high + qR).
Lemma nb_pos : 0 < INR nb. Proof. apply lt_0_INR. lia. Qed.
Lemma e_neg : e < 0.
Proof.
  pose proof qR_pos. pose proof nb_pos. assert (ln (low + qR) < ln (high + qR)) by (apply ln_increasing; lra).
  unfold e, Rdiv. assert (0 < / INR nb) by (apply Rinv_0_lt_compat; auto). nra.
Qed.
Lemma cf_dec i j : (i < j)%nat -> cf j < cf i.
Proof.
  intros H. apply lt_INR in H. pose proof e_neg. pose proof qR_pos. unfold cf.
  assert (exp ((INR j + 1) * e) < exp ((INR i + 1) * e)) by (apply exp_increasing; nra). nra.
Qed.
Lemma cf_below i : cf i < high.
Proof.
  pose proof e_neg. pose proof qR_pos. pose proof (pos_INR i). unfold cf.
  assert (X : (INR i + 1) * e < 0) by nra. apply exp_increasing in X. rewrite exp_0 in X. nra.
Qed.
Lemma cf_last : cf (nb - 1) = low.
Proof.
  pose proof qR_pos. pose proof nb_pos. unfold cf. rewrite minus_INR by lia. cbn [INR].
  replace (INR nb - 1 + 1) with (INR nb) by ring. unfold e.
  replace (INR nb * ((- ln (high + qR) + ln (low + qR)) / INR nb)) with (- ln (high + qR) + ln (low + qR)) by (field; lra).
  rewrite exp_plus, exp_Ropp, !exp_ln by lra. field. lra.
Qed.
Lemma cfs_len : List.length (calculate_uniform_center_freqs (N:=N) nb low high) = nb.
Proof. rewrite cf_R, map_length, seq_length. auto. Qed.
Lemma cfs_nth i : (i < nb)%nat -> nth i (calculate_uniform_center_freqs (N:=N) nb low high) 0 = cf i.
Proof. intros H. rewrite cf_R. apply nth_map_seq. auto. Qed.
Lemma cfs_sorted : sort_num (N:=N) (calculate_uniform_center_freqs (N:=N) nb low high) =
  Ok (rev (calculate_uniform_center_freqs (N:=N) nb low high)).
Proof.
  unfold sort_num. assert (E : existsb (nis_nan (N:=N)) (calculate_uniform_center_freqs (N:=N) nb low high) = false).
  { apply not_true_is_false. intros H. apply existsb_exists in H. destruct H as (x & _ & H). rewrite R_nis_nan in H. discriminate. }
  rewrite E, andb_false_r. f_equal. apply sort_dec. intros i j Hij. pose proof cfs_len as L.
  change (num N) with R in *. rewrite L in Hij. rewrite !cfs_nth by lia. apply cf_dec. lia.
Qed.
Lemma rev_cfs k : (k < nb)%nat -> nth k (rev (calculate_uniform_center_freqs (N:=N) nb low high)) 0 = cf (nb - 1 - k).
Proof.
  intros H. pose proof cfs_len as L. change (num N) with R in *. rewrite rev_nth by lia. rewrite L.
  rewrite cfs_nth by lia. f_equal. lia.
Qed.
End F.

Lemma C32_R nb (f f' : Filterbank N) s w sp upper :
  (1 <= nb)%nat -> 0 <= fb_min_freq f ->
  upper = Rmin (IZR (max_freq nb (sample_rate s))) (IZR (sample_rate s) / 2) ->
  fb_min_freq f < upper ->
  build nb f s w = (f', Ok sp) ->
  let c := center_freq_bands sp in
  List.length c = nb /\ nth 0 c 0 = fb_min_freq f /\
  (forall i j, (i < j < nb)%nat -> nth i c 0 < nth j c 0) /\
  (forall i, (i < nb)%nat -> nth i c 0 < upper) /\
  (forall k j, (k < nb)%nat -> (0 < hop_size w)%Z -> (1 <= win_size w)%Z -> (j < mcols (sp_data sp))%nat ->
     let y := cascade (N:=N) (erb_row (sample_rate s) (nth k c 0)) (frame (data_matrix s) (win_size w) (hop_size w) j) in
     mget (sp_data sp) k j = R_sqrt.sqrt (Rsum (map (fun v => v * v) y) / IZR (win_size w))).
Proof.
  intros Hn Hl Hu Hh B c.
  assert (U : (if nltb N (ndiv N (nofZ N (sample_rate s)) (nofZ N 2)) (nofZ N (max_freq nb (sample_rate s)))
               then ndiv N (nofZ N (sample_rate s)) (nofZ N 2) else nofZ N (max_freq nb (sample_rate s))) = upper).
  { cbn [RN nltb ndiv nofZ]. rewrite Hu. unfold Rmin. destruct (Rltb _ _) eqn:E.
    - apply Rltb_true in E. destruct (Rle_dec _ _); lra.
    - apply Rltb_false in E. destruct (Rle_dec _ _); lra. }
  pose proof (build_inv nb f f' s w sp B) as (_ & _ & cols & _ & _ & S).
  unfold make_filters in S. cbv zeta in S. cbn [snd] in S. rewrite U in S.
  rewrite cfs_sorted in S by auto. injection S as S. fold c in S.
  assert (L : List.length c = nb) by (rewrite <- S, rev_length; apply cfs_len).
  assert (Nc : forall k, (k < nb)%nat -> nth k c 0 = - qR + exp ((INR (nb - 1 - k) + 1) * ((- ln (upper + qR) + ln (fb_min_freq f + qR)) / INR nb)) * (upper + qR)).
  { intros k Hk. rewrite <- S. apply rev_cfs; auto. }
  split; auto. split; [|split; [|split]].
  - rewrite Nc by lia. rewrite Nat.sub_0_r. apply cf_last; auto.
  - intros i j Hij. rewrite !Nc by lia. apply cf_dec; auto. lia.
  - intros i Hi. rewrite Nc by lia. apply cf_below; auto.
  - intros k j Hk Hp Hw Hj y. destruct (entry_cascade nb f s w f' sp k j Hp Hw B Hk Hj) as [_ E].
    assert (FQ : nth (nb - 1 - k) (snd (make_filters (N:=N) nb (sample_rate s) (fb_min_freq f)
        (nofZ N (max_freq nb (sample_rate s))))) (nofZ N 0) = nth k c 0).
    { unfold make_filters. cbv zeta. cbn [snd]. rewrite U.
      rewrite <- S. rewrite rev_nth by (rewrite cfs_len; auto). rewrite cfs_len.
      replace (nb - Datatypes.S k)%nat with (nb - 1 - k)%nat by lia. reflexivity. }
    rewrite FQ in E. fold y in E. rewrite R_nd_sum in E. exact E.
Qed.
End Rbands.
