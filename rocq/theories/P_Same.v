(** C41: comparing a signal with itself, in exact arithmetic. *)
From Coq Require Import Reals Lra Lia.
From Verif Require Import Base Num Mat RNum M_Audio M_Align M_Spectro M_Patch M_Nsim M_Selector M_Visqol.
From Verif Require Import P_Base P_Mat P_R P_Level P_Manager P_Score P_Patch Spec Spec2 Spec3 P_Conv P_Nsim P_Dp P_Dp2 P_Dp3 P_Agg P_Run P_Self.
Open Scope R_scope.

(** A result of the best possible similarity in all bands. *)
Definition perfect (nb : nat) (p : PatchSim RN) : Prop :=
  similarity p = 1 /\ freq_band_means p = repeat 1 nb /\ freq_band_stddevs p = repeat 0 nb.

Lemma mean_one l : l <> [] -> Forall (fun x => -1 <= x <= 1) l -> 1 <= mean_of l -> Forall (fun x => x = 1) l.
Proof.
  intros Hn Hf Hm. assert (Hl : 0 < INR (List.length l)) by (apply lt_0_INR; destruct l; [tauto|cbn; lia]).
  assert (S : INR (List.length l) <= Rsum l).
  { unfold mean_of in Hm. apply (Rmult_le_compat_r (INR (List.length l))) in Hm; [|lra]. replace (Rsum l / INR (List.length l) * INR (List.length l)) with (Rsum l) in Hm by (field; lra). lra. }
  assert (D : Rsum (map (fun x => 1 - x) l) <= 0).
  { rewrite (Rsum_minus (fun _ => 1) (fun x => x)), Rsum_map_const, map_id. lra. }
  apply Forall_forall. intros x Hx. assert (Z0 : 1 - x = 0); [|lra].
  apply (Rsum_zero (map (fun x => 1 - x) l)); auto.
  - apply Forall_forall. intros y Hy. apply in_map_iff in Hy as (z & <- & Hz). rewrite Forall_forall in Hf. specialize (Hf z Hz). lra.
  - apply in_map_iff. eauto.
Qed.
Lemma measure_perfect (r d : mat RN) p : mat_wf r -> mat_wf d -> mrows d = mrows r -> mcols d = mcols r -> (1 <= mrows r)%nat -> (1 <= mcols r)%nat ->
  measure_patch_similarity r d = Ok p -> 1 <= similarity p -> perfect (mrows r) p.
Proof.
  intros Wr Wd Hr Hc R1 C1 Hp H1. destruct (measure_R r d Wr Wd Hr Hc R1 C1) as (q & Q & A & B & C & D). rewrite Hp in Q.
  assert (p = q) by congruence. subst q.
  destruct (C36_bounds r d p Wr Wd Hr Hc R1 C1 Hp) as [F S].
  assert (Hne : freq_band_means p <> []) by (rewrite A; destruct (mrows r); [lia|discriminate]).
  assert (G : Forall (fun x => x = 1) (freq_band_means p)) by (apply mean_one; auto; rewrite <- D; auto).
  assert (E1 : freq_band_means p = repeat 1 (mrows r)).
  { assert (L : List.length (freq_band_means p) = mrows r) by (rewrite A, map_length, seq_length; auto). rewrite <- L. clear - G.
    induction G as [|x l -> _ IH]; cbn [List.length repeat]; [auto|f_equal; exact IH]. }
  split; [lra|]. split; [exact E1|].
  rewrite B. rewrite (map_ext_in _ (fun _ => 0)); [apply map_const_seq|]. intros i Hi. apply in_seq in Hi.
  destruct (row_bound r d i Hr Hc R1 C1) as [N1 N2]. apply (sample_std_const _ 1); auto. apply mean_one; auto.
  rewrite Forall_forall in G. right. symmetry. apply G. rewrite A. apply in_map_iff. exists i. split; auto. apply in_seq. lia.
Qed.

(** ** The search *)
Section Find.
Variable pf : profile.
Variable refs : list (mat RN).
Variable idx : list Z.
Variable deg : mat RN.
Variable radius : Z.
Variable fp : nat.
Hypothesis SI : search_in refs idx deg radius fp.
Notation sw := (radius * Z.of_nat fp)%Z.
Notation c := (Z.of_nat (mcols deg)).
Notation M := (List.length idx).
Hypothesis Hc : (c < 2 ^ 53)%Z.
Hypothesis Hself : forall k, (k < M)%nat -> (0 <= nth k idx 0)%Z /\ (nth k idx 0 + Z.of_nat fp <= c)%Z /\ nth_error refs k = Some (patch_at deg (nth k idx 0%Z) fp).
Hypothesis Hincr : forall k, (S k < M)%nat -> (nth k idx 0 < nth (S k) idx 0)%Z.

Lemma find_calc fd out : find_most_optimal_deg_patches pf refs idx deg fd radius = Ok out ->
  exists P, calc_max_num_patches pf idx c (Z.of_nat fp) = Ok (Z.of_nat P).
Proof.
  intros H. unfold find_most_optimal_deg_patches in H. destruct SI as [S1 S2 S3 S4 S5 S6 S7 S8].
  destruct refs as [|p0 rt] eqn:Er; [tauto|]. change (zget (p0 :: rt) 0) with (Ok p0) in H. cbn [bind] in H.
  assert (F0 : mcols p0 = fp) by (apply S3; left; auto). rewrite F0 in H. cbv zeta in H. inv_do H. inv_do Hk.
  assert (Hne : idx <> []) by (destruct idx; [cbn in S1; lia|discriminate]).
  destruct (calc_max_pos _ _ _ _ _ Hv0 Hne). exists (Z.to_nat v0). rewrite Z2Nat.id by lia. auto.
Qed.
Lemma M_small : (Z.of_nat M <= c)%Z.
Proof.
  assert (G : forall k, (k < M)%nat -> (Z.of_nat k <= nth k idx 0)%Z).
  { induction k as [|k IH]; intros Hk; [apply (Hself 0); auto|]. specialize (IH ltac:(lia)). specialize (Hincr k Hk). lia. }
  destruct M as [|m] eqn:E; [lia|]. specialize (G m ltac:(lia)). destruct (Hself m ltac:(lia)) as (_ & Hm & _). destruct (sn_fp _ _ _ _ _ SI). lia.
Qed.
Lemma sim_range k s : (k < M)%nat -> -1 <= sim_at (N:=RN) refs deg k s <= 1.
Proof.
  intros Hk. unfold sim_at. destruct (Hself k Hk) as (_ & _ & E). rewrite E. cbn [patch_at mbuild mcols]. destruct SI as [S1 S2 S3 S4 S5 S6 S7 S8].
  change (patch_at deg (nth k idx 0%Z) (Z.to_nat (Z.of_nat fp))) with (patch_at deg (nth k idx 0%Z) (Z.to_nat (Z.of_nat fp))).
  destruct (measure_patch_similarity _ _) eqn:Em; try (change (nofZ RN 0) with 0; lra).
  eapply C36_bounds in Em; [apply Em| | | | | |]; try apply patch_at_wf; cbn [patch_at mbuild mrows mcols]; auto; lia.
Qed.
Lemma sim_self k : (k < M)%nat -> sim_at (N:=RN) refs deg k (nth k idx 0%Z) = 1.
Proof.
  intros Hk. unfold sim_at. destruct (Hself k Hk) as (_ & _ & E). rewrite E. destruct SI as [S1 S2 S3 S4 S5 S6 S7 S8].
  change (mcols (patch_at deg (nth k idx 0%Z) fp)) with fp.
  destruct (C36_same (patch_at deg (nth k idx 0%Z) fp)) as (p & Ep & E1 & _); [apply patch_at_wf|cbn [patch_at mbuild mrows mcols]; lia|cbn [patch_at mbuild mrows mcols]; lia|].
  rewrite Ep. exact E1.
Qed.
Lemma find_self fd out : find_most_optimal_deg_patches pf refs idx deg fd radius = Ok out -> Forall (perfect (mrows deg)) out /\ out <> [].
Proof.
  intros H. destruct (find_calc fd out H) as (P & HP).
  pose proof SI as [S1 S2 S3 S4 S5 S6 S7 S8].
  assert (Hsw : (0 <= sw)%Z) by nia.
  destruct (find_tables pf refs idx deg radius fp SI P fd HP) as (dp & bt & TR & HPM & EQ).
  { intros r Hr. apply (In_nth _ _ 0%Z) in Hr as (k & Hk & <-). destruct (Hself k Hk) as (? & ? & _). lia. }
  rewrite EQ in H. clear EQ. pose proof M_small as MS. assert (MM : (Z.of_nat M < 2 ^ 53)%Z) by lia.
  assert (Hrange : forall k s, (k < M)%nat -> (0 <= s < c)%Z -> -1 <= sim_at (N:=RN) refs deg k s <= 1) by (intros; apply sim_range; auto).
  assert (Hdiag : forall k, (k < M)%nat -> (0 <= nth k idx 0 < c)%Z /\ sim_at (N:=RN) refs deg k (nth k idx 0%Z) = 1).
  { intros k Hk. split; [destruct (Hself k Hk) as (? & ? & _); lia|apply sim_self; auto]. }
  pose proof (D_diag _ _ _ _ _ _ _ _ TR eq_refl Hrange MM Hdiag Hincr Hsw) as DD.
  pose proof (full_cell _ _ _ _ _ _ _ _ TR eq_refl Hrange MM) as FC.
  pose proof (D_bound _ _ _ _ _ _ _ _ TR eq_refl Hrange MM) as DB.
  pose proof TR as (I1 & I2 & I3 & I4 & I5).
  (* the offset of the last patch *)
  inv_do H. unfold best_last_offset in Hv. 
  set (last := (P - 1)%nat) in *.
  assert (GZ : forall s, (0 <= s < c)%Z -> zget (nth last dp []) s = Ok (tcell 0 dp last s : num RN)).
  { intros s Hs. apply zget_in. unfold zlen. pose proof (proj1 (I3 last ltac:(lia))) as L. match goal with |- (_ <= _ < Z.of_nat ?n)%Z => replace n with (mcols deg) by (symmetry; exact L) end. lia. }
  rewrite (scan_fold (N:=RN) (nth last dp []) (fun s => tcell 0 dp last s)) in Hv.
  2: { intros s Hs. apply in_zrange in Hs. apply GZ. unfold lo in Hs. lia. }
  cbn [bind] in Hv.
  match type of Hv with context [fold_left _ ?l _] => pose proof (scan_spec (N:=RN) _ _ _ R_order (fun s => tcell 0 dp last s) l (nmin_value RN) 0%Z I (fun _ _ => I)) as SS end.
  cbv beta in SS. destruct (fold_left _ _ _) as [hv o]. destruct SS as (_ & _ & G2 & G3). cbn [snd] in Hv. assert (v = o) by congruence. subst v. clear Hv.
  assert (Hin : In (nth last idx 0%Z) (zrange (lo idx sw last) (Z.min (nth last idx 0%Z + sw + 1)%Z c))).
  { apply in_zrange. destruct (Hself last ltac:(lia)) as (? & ? & _). unfold lo. lia. }
  specialize (G2 _ Hin). rewrite DD in G2 by lia.
  assert (Ho : (0 <= o < c)%Z /\ tcell 0 dp last o = INR (S last)).
  { destruct G3 as [[G3 _]|(G3 & G4 & _)].
    - exfalso. pose proof min_small. rewrite G3 in G2. assert (0 <= INR (S last)) by apply pos_INR. assert (0 <= IZR (2 ^ 54)) by (apply IZR_le; lia).
      change (num RN) with R in *. assert (INR (S last) <= nmin_value RN) by exact G2. assert (0 < INR (S last)) by (apply lt_0_INR; lia). apply (Rlt_irrefl 0). apply Rlt_le_trans with (INR (S last)); auto. apply Rle_trans with (nmin_value RN); auto. apply Rle_trans with (- IZR (2 ^ 54)); [exact H|lra].
    - apply in_zrange in G3. assert (Hr : (0 <= o < c)%Z) by (unfold lo in G3; lia). split; auto.
      assert (hv = tcell 0 dp last o) by exact G4. destruct (DB last ltac:(lia) o Hr) as [_ U]. assert (INR (S last) <= hv) by exact G2. change (num RN) with R in *. lra. }
  assert (B0 : forall s, (0 <= s < c)%Z -> tcell 0 dp 0 s = INR 1 -> (0 < M)%nat -> tcell 0%Z bt 0 s <> s).
  { intros s Hs Hd HM0. assert (Hd' : in_window sw c (nth 0 idx 0%Z) s \/ ~ in_window sw c (nth 0 idx 0%Z) s) by (unfold in_window; lia). destruct Hd' as [Hw|Hw].
    - specialize (I5 O s HM0 Hw). cbn [prev_of dp_cell] in I5. assert (Eb : (usize_mod - 1 = tcell 0 bt 0 s)%Z) by exact (f_equal (fun x : res (R * Z) => match x with Ok (_, b) => b | _ => 0%Z end) I5).
      rewrite <- Eb. unfold usize_mod. lia.
    - destruct (I4 O s HM0 Hs (or_intror Hw)) as [E _]. assert (tcell 0 dp 0 s = 0) by exact E. cbn in Hd. change (num RN) with R in *. lra. }
  (* walking back *)
  assert (BT : forall pd k, (k <= M)%nat -> forall s acc, (k = 0%nat \/ ((0 <= s < c)%Z /\ tcell 0 dp (k - 1) s = INR k)) -> Forall (perfect (mrows deg)) acc -> (k <> 0%nat \/ acc <> []) ->
    backtrace_loop pf refs idx deg bt fd pd k s acc = Ok out -> Forall (perfect (mrows deg)) out /\ out <> []).
  { clear Hk. intros pd k. induction k as [|k IH]; intros Hk s acc Hs Ha Hne Hb.
    - cbn [backtrace_loop] in Hb. assert (acc = out) by congruence. subst. split; auto. destruct Hne; [lia|auto].
    - destruct Hs as [Hs|[Hs Hd]]; [lia|]. replace (S k - 1)%nat with k in Hd by lia.
      destruct (back_step pf refs idx deg radius fp SI bt fd pd k s acc Hk I2 (fun j Hj => proj2 (I3 j Hj)) ltac:(lia) Hs) as (rp & p & Er & Ep & Eb).
      rewrite Eb in Hb. destruct (FC k s ltac:(lia) Hs Hd) as [Sm Nx].
      assert (NL : (s =? tcell 0 bt k s)%Z = false).
      { apply Z.eqb_neq. destruct k as [|k]; [intros X; apply (B0 s Hs Hd ltac:(lia)); auto|]. destruct (Nx k eq_refl). lia. }
      assert (Pp : perfect (mrows deg) p).
      { destruct (S3 rp (nth_error_In _ _ Er)) as (Wf & R1 & C1). rewrite <- R1.
        apply (measure_perfect rp (patch_at deg s fp)); auto; try apply patch_at_wf; cbn [patch_at mbuild mrows mcols]; try lia.
        unfold sim_at in Sm. rewrite Er, C1, Ep in Sm. rewrite Sm. lra. }
      revert Hb. apply IH; [lia| | |].
      + destruct k as [|k]; [left; auto|right]. destruct (Nx k eq_refl) as [X Y]. split; [lia|]. replace (S k - 1)%nat with k by lia. exact Y.
      + constructor; auto. rewrite NL. exact Pp.
      + right. discriminate. }
  eapply BT; [|right|constructor|left|exact Hk]; [lia| |lia].
  fold last. split; [apply Ho|]. replace P with (S last) by lia. apply Ho.
Qed.
End Find.

(** ** Fine alignment *)
Lemma realign_inv {N} pf nb rs ds w (f f' : Filterbank N) old p :
  realign_patch pf nb rs ds w f old = (f', Ok p) ->
  p = old \/ exists ra da ra' da' lag fb1 rspec fb2 dspec rp dp new,
    slice rs (ref_patch_start_time old) (ref_patch_end_time old) = Ok ra /\
    slice ds (deg_patch_start_time old) (deg_patch_end_time old) = Ok da /\
    align_and_truncate pf ra da = Ok (Some (ra', da', lag)) /\
    build nb f ra' w = (fb1, Ok rspec) /\ build nb fb1 da' w = (fb2, Ok dspec) /\
    prepare_spectrograms_for_comparison rspec dspec = Ok (rp, dp) /\
    measure_patch_similarity (sp_data rp) (sp_data dp) = Ok new /\
    nltb N (similarity new) (similarity old) = false /\
    p = choose_result old new lag (get_duration ra') (get_duration da').
Proof.
  unfold realign_patch. destruct (is_lost old) eqn:L; [intros [= _ <-]; auto|].
  destruct (slice rs _ _) as [ra| |] eqn:S1; try discriminate. destruct (slice ds _ _) as [da| |] eqn:S2; try discriminate.
  destruct (align_and_truncate pf ra da) as [[[[ra' da'] lag]|]| |] eqn:AL; try discriminate.
  destruct (build nb f ra' w) as [fb1 [rspec| |]] eqn:B1; try discriminate.
  destruct (build nb fb1 da' w) as [fb2 [dspec| |]] eqn:B2; intros [= _ H]; cbn [bind] in H; try discriminate. inv_do H. inv_do Hk. injection Hk0 as <-.
  destruct v as [rp dp]. cbn [fst snd] in *.
  destruct (nltb N (similarity v0) (similarity old)) eqn:E; [left; unfold choose_result; rewrite E; auto|]. right.
  exists ra, da, ra', da', lag, fb1, rspec, fb2, dspec, rp, dp, v0. auto 12.
Qed.
Lemma nsim_dims {N} (a b m : mat N) : nsim_map a b = Ok m ->
  (mrows a = mrows b /\ mcols a = mcols b /\ 1 <= mrows a /\ 1 <= mcols a)%nat.
Proof.
  unfold nsim_map; intros H.
  repeat (inv_do H; match goal with H2 : _ = Ok m |- _ => rename H2 into H end).
  repeat match goal with H : mzip _ _ _ = Ok _ |- _ => apply mzip_ok in H; destruct H as (? & ? & ?) end.
  subst.
  repeat match goal with H : perform_valid_2d_conv_with_boundary _ _ = Ok _ |- _ =>
    unfold perform_valid_2d_conv_with_boundary in H; 
    destruct ((_ <=? _)%nat && (_ <=? _)%nat) eqn:? in H; [injection H as H|discriminate]; subst end.
  cbn [mbuild mmap mrows mcols nsim_window add_matrix_boundary copy_matrix_within_padding] in *.
  lia.
Qed.
Lemma measure_dims {N} (a b : mat N) p : measure_patch_similarity a b = Ok p ->
  (mrows a = mrows b /\ mcols a = mcols b /\ 1 <= mrows a /\ 1 <= mcols a)%nat.
Proof. unfold measure_patch_similarity. intros H. inv_do H. eapply nsim_dims; eauto. Qed.
Lemma realign_perfect pf nb rs ds w (f f' : Filterbank RN) old p : perfect nb old ->
  realign_patch pf nb rs ds w f old = (f', Ok p) -> perfect nb p.
Proof.
  intros Ho H. apply realign_inv in H as [->|(ra & da & ra' & da' & lag & fb1 & rspec & fb2 & dspec & rp & dp & new & _ & _ & _ & B1 & B2 & PR & ME & NL & ->)]; auto.
  pose proof (measure_dims _ _ _ ME) as (D1 & D2 & D3 & D4).
  apply prepare_shape in PR. destruct PR as [(W1 & R1 & _) (W2 & R2 & _)].
  apply build_shape in B1. destruct B1 as (_ & E & _). rewrite E in R1.
  assert (Pn : perfect (mrows (sp_data rp)) new).
  { apply (measure_perfect (sp_data rp) (sp_data dp)); auto. destruct Ho as [Ho _]. rewrite Ho in NL. apply Rltb_false in NL. exact NL. }
  rewrite R1 in Pn. unfold choose_result. rewrite NL. exact Pn.
Qed.
Lemma finely_perfect pf nb rs ds w l : forall (f f' : Filterbank RN) out, Forall (perfect nb) l ->
  finely_align_and_recreate_patches pf nb rs ds w f l = (f', Ok out) -> Forall (perfect nb) out.
Proof.
  induction l as [|old t IH]; intros f f' out Hl; cbn [finely_align_and_recreate_patches].
  { intros [= _ <-]. constructor. }
  destruct (realign_patch pf nb rs ds w f old) as [fb1 r] eqn:E.
  destruct r as [p| |]; try discriminate.
  destruct (finely_align_and_recreate_patches pf nb rs ds w fb1 t) as [fb2 rest] eqn:E2.
  intros [= _ H]. inv_do H. injection Hk as <-. inversion Hl; subst. constructor.
  - eapply realign_perfect; eauto.
  - eapply IH; eauto.
Qed.

(** ** Averages *)
Lemma repeat_ext (l : list R) x n : List.length l = n -> (forall b, (b < n)%nat -> nth b l 0 = x) -> l = repeat x n.
Proof.
  intros L H. apply (nth_ext _ _ 0 0); [rewrite repeat_length; auto|]. intros k Hk. rewrite H by lia. symmetry. apply nth_repeat_lt. lia.
Qed.
Lemma seq_sum_const {A} (f : A -> R) x l : (forall a, In a l -> f a = x) -> seq_sum (N:=RN) (map f l) = INR (List.length l) * x.
Proof. intros H. etransitivity; [apply R_seq_sum|]. rewrite (map_ext_in f (fun _ => x)) by auto. apply Rsum_map_const. Qed.
Lemma perfect_shape nb p : perfect nb p -> List.length (freq_band_means p) = nb.
Proof. intros (_ & E & _). rewrite E. apply repeat_length. Qed.
Lemma means_perfect nb (info : list (PatchSim RN)) out : Forall (perfect nb) info -> info <> [] -> List.length out = nb ->
  calc_per_patch_mean_freq_band_means info = Ok out -> out = repeat 1 nb.
Proof.
  intros F NE L H. apply repeat_ext; auto. intros b Hb. rewrite Forall_forall in F.
  etransitivity; [apply (means_nth (N:=RN) info out H b 0); lia|].
  assert (E : seq_sum (N:=RN) (map (fun p : PatchSim RN => @nth R b (freq_band_means p) 0) info) = INR (List.length info) * 1).
  { apply seq_sum_const. intros p Hp. destruct (F p Hp) as (_ & -> & _). apply nth_repeat_lt. auto. }
  etransitivity; [apply (f_equal (fun x => ndiv RN x _)); exact E|]. change (INR (List.length info) * 1 / IZR (zlen info) = 1). unfold zlen. rewrite <- INR_IZR_INZ.
  field. apply not_0_INR. destruct info; [tauto|discriminate].
Qed.
Lemma contrib_perfect pf fc x nb out : (0 <= fc)%Z -> add_contribution (N:=RN) pf fc (repeat x nb) (repeat 0 nb) (repeat 1 nb) = Ok out -> out = repeat (x + IZR fc) nb.
Proof.
  intros Hf. revert out. induction nb as [|nb IH]; intros out H; cbn [repeat add_contribution] in H.
  - cbn [repeat]. apply (f_equal (fun r : res (list R) => match r with Ok x => x | _ => [] end)) in H. symmetry. exact H.
  - inv_do H. inv_do Hk. cbn [repeat]. rewrite <- (IH _ Hv0). assert (G : forall a b : list (num RN), Ok a = Ok b -> a = b) by (intros; congruence). apply G in Hk0. rewrite <- Hk0.
    f_equal. cbn [nadd nmul nofZ RN]. realeq. ring.
Qed.
