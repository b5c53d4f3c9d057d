(** C54: ranges and mutual consistency of the reported numbers, in exact arithmetic. *)
From Coq Require Import Reals Lra Lia.
From Verif Require Import Base Num Mat RNum M_Audio M_Align M_Spectro M_Patch M_Nsim M_Selector M_Visqol.
From Verif Require Import P_Base P_Mat P_R P_Manager P_Score Spec Spec2 Spec3 P_Conv P_Nsim P_Agg P_Run P_Prep P_Same.
Open Scope R_scope.

Definition sane (nb : nat) (p : PatchSim RN) : Prop :=
  List.length (freq_band_means p) = nb /\ List.length (freq_band_stddevs p) = nb /\ List.length (freq_band_deg_energy p) = nb /\
  Forall (fun x => -1 <= x <= 1) (freq_band_means p) /\
  Forall (fun x => 0 <= x) (freq_band_stddevs p) /\
  Forall (fun x => 0 <= x) (freq_band_deg_energy p) /\
  -1 <= similarity p <= 1 /\ similarity p = mean_of (freq_band_means p).

Lemma prep_nonneg (r d r' d' : Spectrogram RN) : prepare_spectrograms_for_comparison r d = Ok (r', d') ->
  forall i j, (i < mrows (sp_data d'))%nat -> (j < mcols (sp_data d'))%nat -> 0 <= mget (sp_data d') i j.
Proof.
  unfold prepare_spectrograms_for_comparison, raise_floor_per_frame; cbv zeta; intros H.
  inv_do H. inv_do Hv. injection Hk0 as <-. inv_do Hk. inv_do Hk0. injection Hk as <- <-.
  unfold get_minimum in Hv1. match type of Hv1 with context [nd_min ?l] => destruct (nd_min l) as [mn|] eqn:E; [|discriminate] end. injection Hv1 as ->.
  unfold subtract_floor, with_data. cbn [sp_data]. match goal with |- context [mmap _ ?m] => set (M := m) in * end.
  intros i j Hi Hj. unfold mmap in Hi, Hj |- *. cbn [mbuild mrows mcols] in Hi, Hj. rewrite mget_mbuild by auto.
  assert (In (mget M i j) (mflat M)).
  { subst M. cbn [with_data sp_data] in *. apply in_flat. cbn [mbuild mrows mcols] in Hi, Hj. exists i, j. rewrite mget_mbuild by auto. auto. }
  assert (L : v1 <= mget M i j).
  { destruct (nd_min_ok _ _ _ R_num_order (mflat M)) as (m & E2 & _ & F).
    - intros Z. rewrite Z in H. destruct H.
    - apply Forall_forall. intros; exact I.
    - assert (m = v1) by (cbn [with_data sp_data] in E; change (nd_min (mflat M) = Some v1) in E; congruence). subst m. rewrite Forall_forall in F. apply F. auto. }
  change (0 <= mget M i j - nmin (N:=RN) v v1).
  assert (nmin (N:=RN) v v1 <= v1).
  { destruct (nmin_spec _ _ _ R_num_order v v1 I I) as [_ Q]. cbn beta in Q. rewrite Q. apply Rmin_r. }
  change (num RN) with R in *. lra.
Qed.

Lemma mean_nonneg l : l <> [] -> Forall (fun x => 0 <= x) l -> 0 <= mean_of l.
Proof.
  intros Hn H. unfold mean_of. apply Rmult_le_pos.
  - clear Hn. induction H; [unfold Rsum; cbn; lra|rewrite Rsum_cons; lra].
  - apply Rlt_le, Rinv_0_lt_compat, lt_0_INR. destruct l; [tauto|cbn; lia].
Qed.
Lemma rows_nonneg (d : mat RN) : mat_wf d ->
  (forall i j, (i < mrows d)%nat -> (j < mcols d)%nat -> 0 <= mget d i j) -> (1 <= mcols d)%nat ->
  Forall (fun row => row <> [] /\ Forall (fun x : R => 0 <= x) row) (mdata d).
Proof.
  intros [W1 W2] H C1. apply Forall_forall. intros row Hr. rewrite Forall_forall in W2. pose proof (W2 row Hr) as L.
  split; [intros ->; cbn in L; lia|].
  apply (In_nth _ _ []) in Hr as (i & Hi & <-). apply Forall_forall. intros x Hx.
  apply (In_nth _ _ 0) in Hx as (j & Hj & <-). assert (Hj2 : (j < mcols d)%nat) by (rewrite <- L; exact Hj). assert (Hi2 : (i < mrows d)%nat) by (rewrite <- W1; exact Hi). specialize (H i j Hi2 Hj2). unfold mget in H.
  exact H.
Qed.
Lemma measure_sane (a b : mat RN) p : mat_wf a -> mat_wf b ->
  (forall i j, (i < mrows b)%nat -> (j < mcols b)%nat -> 0 <= mget b i j) ->
  measure_patch_similarity a b = Ok p -> sane (mrows a) p.
Proof.
  intros Wa Wb Hb H. pose proof (measure_dims _ _ _ H) as (D1 & D2 & D3 & D4).
  destruct (measure_shape a b p Wb H) as (S1 & S2 & S3).
  destruct (C36_bounds a b p) as (B1 & B2); auto.
  destruct (measure_R a b) as (q & Q & A1 & A2 & A3 & A4); auto. assert (q = p) by congruence. subst q.
  unfold sane. repeat (split; [solve [auto]|]). split; [|split; [|split; auto]].
  - rewrite A2. apply Forall_forall. intros x Hx. apply in_map_iff in Hx as (i & <- & _). apply sqrt_pos.
  - rewrite A3. apply Forall_forall. intros x Hx. apply in_map_iff in Hx as (row & <- & Hr).
    assert (F := rows_nonneg b Wb Hb ltac:(lia)). rewrite Forall_forall in F. destruct (F _ Hr). apply mean_nonneg; auto.
Qed.
Lemma set_times_sane nb p l o r fd pd : (1 <= nb)%nat -> sane nb p -> sane nb (set_times p l o r fd pd).
Proof.
  intros Hn (A1 & A2 & A3 & A4 & A5 & A6 & A7 & A8). unfold sane, set_times.
  cbn [freq_band_means freq_band_stddevs freq_band_deg_energy similarity].
  destruct l; [|intuition auto]. rewrite !repeat_length. repeat (split; [solve [auto]|]).
  assert (F : Forall (fun x => x = 0) (repeat (nofZ RN 0) (List.length (freq_band_means p)))).
  { apply Forall_forall. intros x Hx. apply repeat_spec in Hx. auto. }
  split; [eapply Forall_impl; [|exact F]; cbn; intros; lra|]. split; auto. split; auto. split; [cbn; lra|].
  change (nofZ RN 0) with 0. assert (M : 0 <= mean_of (repeat 0 (List.length (freq_band_means p))) <= 0).
  { apply mean_of_bound.
    - rewrite A1. destruct nb; [lia|discriminate].
    - eapply Forall_impl; [|exact F]; cbn; intros; lra. }
  assert (M2 : mean_of (repeat 0 (List.length (freq_band_means p))) = 0) by lra. symmetry. exact M2.
Qed.
Lemma deg_patch_nonneg (m p : mat RN) a b :
  (forall i j, (i < mrows m)%nat -> (j < mcols m)%nat -> 0 <= mget m i j) ->
  build_degraded_patch m a b = Ok p ->
  forall i j, (i < mrows p)%nat -> (j < mcols p)%nat -> 0 <= mget p i j.
Proof.
  intros Hm. unfold build_degraded_patch; intros H. inv_do H. apply mslice_ok in Hv. destruct Hv as (B1 & B2 & ->).
  match type of Hk with context [Z.to_nat (?x - a)] => match type of Hk with context [mbuild (mrows m) (Z.to_nat (x - a)) ?g] => set (s := mbuild (N:=RN) (mrows m) (Z.to_nat (x - a)) g) in * end end.
  assert (Hs : forall i j, (i < mrows s)%nat -> (j < mcols s)%nat -> 0 <= mget s i j).
  { subst s. cbn [mbuild mrows mcols]. intros i j Hi Hj. rewrite mget_mbuild by auto. apply Hm; auto. lia. }
  destruct (_ <? _) eqn:E; injection Hk as <-; auto.
  cbn [mbuild mrows mcols]. intros i j Hi Hj. rewrite mget_mbuild by auto.
  match goal with |- context [(j <? ?c)%nat] => destruct (Nat.ltb_spec j c) end; [apply Hs; auto|cbn; lra].
Qed.
Lemma backtrace_sane pf rp idx (deg : mat RN) bt fd pd nb k : forall lo acc out, (1 <= nb)%nat ->
  (forall i j, (i < mrows deg)%nat -> (j < mcols deg)%nat -> 0 <= mget deg i j) ->
  Forall (fun m => mat_wf m /\ mrows m = nb) rp -> Forall (sane nb) acc ->
  backtrace_loop (N:=RN) pf rp idx deg bt fd pd k lo acc = Ok out -> Forall (sane nb) out.
Proof.
  induction k; cbn [backtrace_loop]; intros lo acc out Hn Hd Hrp Hacc H; [injection H as <-; auto|].
  do 7 (inv_do H; match goal with H2 : _ = Ok out |- _ => rename H2 into H end).
  apply IHk in H; auto. constructor; auto. apply set_times_sane; auto.
  apply zget_ok in Hv. destruct Hv as [_ Hv]. apply nth_error_In in Hv. rewrite Forall_forall in Hrp.
  destruct (Hrp _ Hv) as [W R]. rewrite <- R.
  pose proof (deg_patch_nonneg _ _ _ _ Hd Hv1). apply build_deg_shape in Hv1. apply measure_sane with (b := v1); tauto.
Qed.
Lemma find_sane pf rp idx (deg : mat RN) fd r nb out : (1 <= nb)%nat ->
  (forall i j, (i < mrows deg)%nat -> (j < mcols deg)%nat -> 0 <= mget deg i j) ->
  Forall (fun m => mat_wf m /\ mrows m = nb) rp ->
  find_most_optimal_deg_patches pf rp idx deg fd r = Ok out -> Forall (sane nb) out.
Proof.
  intros Hn Hd Hrp H. unfold find_most_optimal_deg_patches in H.
  do 3 (inv_do H; match goal with H2 : _ = Ok out |- _ => rename H2 into H end).
  destruct (Z.eqb_spec v1 0); [discriminate|].
  do 2 (inv_do H; match goal with H2 : _ = Ok out |- _ => rename H2 into H end).
  destruct v3 as [dp bt].
  do 6 (inv_do H; match goal with H2 : _ = Ok out |- _ => rename H2 into H end).
  eapply backtrace_sane; [| | | |exact H]; auto.
Qed.
Lemma realign_sane pf nb rs ds w (f f' : Filterbank RN) old p : sane nb old ->
  realign_patch pf nb rs ds w f old = (f', Ok p) -> sane nb p.
Proof.
  intros Ho H. apply realign_inv in H as [->|(ra & da & ra' & da' & lag & fb1 & rspec & fb2 & dspec & rp & dp & new & _ & _ & _ & B1 & B2 & PR & ME & NL & ->)]; auto.
  pose proof (prep_nonneg _ _ _ _ PR) as P0.
  apply prepare_shape in PR. destruct PR as [(W1 & R1 & _) (W2 & R2 & _)].
  apply build_shape in B1. destruct B1 as (_ & E & _). rewrite E in R1.
  apply measure_sane in ME; auto. rewrite R1 in ME. unfold choose_result. rewrite NL. exact ME.
Qed.
Lemma finely_sane pf nb rs ds w l : forall (f f' : Filterbank RN) out, Forall (sane nb) l ->
  finely_align_and_recreate_patches pf nb rs ds w f l = (f', Ok out) -> Forall (sane nb) out.
Proof.
  induction l as [|old t IH]; intros f f' out Hl; cbn [finely_align_and_recreate_patches].
  { intros [= _ <-]. constructor. }
  destruct (realign_patch pf nb rs ds w f old) as [fb1 r] eqn:E.
  destruct r as [p| |]; try discriminate.
  destruct (finely_align_and_recreate_patches pf nb rs ds w fb1 t) as [fb2 rest] eqn:E2.
  intros [= _ H]. inv_do H. injection Hk as <-. subst rest. inversion Hl; subst. constructor.
  - eapply realign_sane; eauto.
  - eapply IH; eauto.
Qed.

Lemma clampR (x : R) : 1 <= nclamp (N:=RN) x (nofZ RN 1) (nofZ RN 5) <= 5.
Proof.
  unfold nclamp. cbn [nofZ nltb RN]. unfold Rltb. repeat match goal with |- context [Rlt_dec ?a ?b] => destruct (Rlt_dec a b) end; lra.
Qed.
Lemma predict_range (m : Mapper RN) v q : predict_quality m v = Ok q -> 1 <= q <= 5.
Proof.
  destruct m as [s|model]; cbn [predict_quality]; intros H.
  - injection H as <-. apply clampR.
  - inv_do H. injection Hk as <-. apply clampR.
Qed.
Lemma Rsum_swap {A B} (f : A -> B -> R) la lb :
  Rsum (map (fun a => Rsum (map (f a) lb)) la) = Rsum (map (fun b => Rsum (map (fun a => f a b) la)) lb).
Proof.
  induction la as [|a t IH]; cbn [map].
  - unfold Rsum at 1. cbn [fold_right]. rewrite Rsum_map_const. change (Rsum []) with 0. ring.
  - rewrite Rsum_cons, IH. rewrite <- Rsum_plus. reflexivity.
Qed.
Lemma nth_map_seq (l : list R) : l = map (fun k => nth k l 0) (seq 0 (List.length l)).
Proof.
  induction l as [|a t IH]; [reflexivity|]. cbn [List.length seq map nth]. f_equal. rewrite <- seq_shift, map_map. exact IH.
Qed.
Lemma Forall_nth0 (P : R -> Prop) (l : list R) : (forall k, (k < List.length l)%nat -> P (nth k l 0)) -> Forall P l.
Proof. intros H. apply Forall_forall. intros x Hx. apply (In_nth _ _ 0) in Hx as (k & Hk & <-). auto. Qed.

Lemma mean_map {A} (f : A -> R) (l : list A) : ndiv RN (seq_sum (N:=RN) (map f l)) (nofZ RN (zlen l)) = mean_of (map f l).
Proof.
  unfold mean_of. rewrite INR_IZR_INZ. cbn [ndiv nofZ RN]. apply (f_equal2 Rdiv); [apply seq_sum_R|].
  unfold zlen. do 2 f_equal. symmetry. exact (map_length f l).
Qed.
Lemma mean_map_len {A} (f : A -> R) (l : list A) : mean_of (map f l) = Rsum (map f l) / INR (List.length l).
Proof. unfold mean_of. f_equal. f_equal. exact (map_length f l). Qed.
Lemma patches_wf' ps (m : mat RN) idx l : create_patches_from_indices ps m idx = Ok l -> Forall (fun p => mat_wf p /\ mrows p = mrows m) l.
Proof.
  unfold create_patches_from_indices; intros H. apply mapM_ok in H. induction H; constructor; auto.
  apply mslice_ok in H. destruct H as (_ & _ & ->). split; auto using mbuild_wf.
Qed.

Lemma C54_all pf nb files (m m' : Manager RN) a b r :
  run pf nb files m a b = (m', Ok r) ->
  1 <= moslqo r <= 5 /\ -1 <= vnsim r <= 1 /\
  Forall (fun x => -1 <= x <= 1) (fvnsim r) /\
  Forall (fun x => 0 <= x) (fstdnsim r) /\
  Forall (fun x => 0 <= x) (fvdegenergy r) /\
  Forall (sane nb) (patch_sims r) /\
  vnsim r = mean_of (map (similarity (N:=RN)) (patch_sims r)).
Proof.
  intros H. pose proof (C38_run _ _ _ _ _ _ _ _ H) as AV. cbv zeta in AV. destruct AV as (L1 & L2 & N1 & N2 & V).
  pose proof (run_parts _ _ _ _ _ _ _ _ H) as (rs & ds & al & lag & fb1 & fb2 & fb3 & rspec & dspec & rprep & dprep & idx & patches & info & Q). cbv zeta in Q.
  destruct Q as (_ & _ & _ & _ & B1 & B2 & PR & _ & CP & FI & FA & MM & SD & _ & _).
  apply run_ok in H. destruct H as (rs' & ds' & al' & lag' & f' & _ & _ & _ & _ & H).
  apply calculate_ok in H. destruct H as (_ & _ & _ & _ & _ & PN & ME & (q & PQ & MO) & _ & _ & _).
  assert (NB : (1 <= nb)%nat). { rewrite <- L1. destruct (fvnsim r); [discriminate|cbn; lia]. }
  assert (SA : Forall (sane nb) (patch_sims r)).
  { eapply finely_sane; [|exact FA]. pose proof (prep_nonneg _ _ _ _ PR) as P0. apply prepare_shape in PR. destruct PR as [(W1 & R1 & _) (W2 & R2 & _)].
    apply build_shape in B1. destruct B1 as (_ & E & _).
    eapply find_sane; [exact NB|exact P0| |exact FI]. apply patches_wf' in CP. eapply Forall_impl; [|exact CP]. cbn. intros p [? ->]. split; auto. congruence. }
  assert (PL : (1 <= List.length (patch_sims r))%nat) by (destruct (patch_sims r); [tauto|cbn; lia]).
  assert (LN : forall k, (k < nb)%nat -> forall get : PatchSim RN -> list R, 
     ndiv RN (seq_sum (N:=RN) (map (fun p => nth k (get p) 0) (patch_sims r))) (nofZ RN (zlen (patch_sims r))) = mean_of (map (fun p => nth k (get p) 0) (patch_sims r))).
  { intros k Hk get. exact (mean_map (fun p => nth k (get p) 0) (patch_sims r)). }
  assert (F1 : Forall (fun x => -1 <= x <= 1) (fvnsim r)).
  { apply Forall_nth0. intros k Hk. assert (Hk2 : (k < nb)%nat) by (rewrite <- L1; exact Hk).
    pose proof (eq_trans (N1 k 0 Hk2) (LN k Hk2 (freq_band_means (N:=RN)))) as E. 
    assert (G : -1 <= mean_of (map (fun p : PatchSim RN => nth k (freq_band_means p) 0) (patch_sims r)) <= 1); [|exact (eq_ind_r (fun x => -1 <= x <= 1) G E)].
    apply mean_of_bound; [destruct (patch_sims r); [cbn in PL; lia|discriminate]|].
    apply Forall_forall. intros x Hx. apply in_map_iff in Hx as (p & <- & Hp). rewrite Forall_forall in SA. destruct (SA p Hp) as (A1 & _ & _ & A4 & _).
    rewrite Forall_forall in A4. apply A4. apply nth_In. rewrite A1. exact Hk2. }
  assert (VM : vnsim r = mean_of (fvnsim r)).
  { etransitivity; [exact V|]. unfold mean_of. cbn [ndiv nofZ RN]. rewrite INR_IZR_INZ. apply (f_equal2 Rdiv (R_nd_sum (fvnsim r))). f_equal. f_equal. exact (eq_sym L1). }
  assert (FN : fvnsim r <> []) by (intros Z; rewrite Z in L1; cbn in L1; lia).
  split; [|split; [|split; [|split; [|split; [|split]]]]]; auto.
  - rewrite MO. unfold alter_for_similarity_extremes. destruct (nltb RN _ _); [cbn; lra|]. eapply predict_range; eauto.
  - rewrite VM. apply mean_of_bound; auto.
  - apply std_entries in SD. eapply Forall_impl; [|exact SD]. cbn beta. intros x [->|(e & _ & ->)]; [cbn; lra|apply sqrt_pos].
  - apply Forall_nth0. intros k Hk. assert (Hk2 : (k < nb)%nat) by (rewrite <- L2; exact Hk).
    pose proof (eq_trans (N2 k 0 Hk2) (LN k Hk2 (freq_band_deg_energy (N:=RN)))) as E.
    assert (G : 0 <= mean_of (map (fun p : PatchSim RN => nth k (freq_band_deg_energy p) 0) (patch_sims r))); [|exact (eq_ind_r (fun x => 0 <= x) G E)].
    apply mean_nonneg; [destruct (patch_sims r); [cbn in PL; lia|discriminate]|].
    apply Forall_forall. intros x Hx. apply in_map_iff in Hx as (p & <- & Hp). rewrite Forall_forall in SA. destruct (SA p Hp) as (_ & _ & A1 & _ & _ & A6 & _).
    rewrite Forall_forall in A6. apply A6. apply nth_In. rewrite A1. exact Hk2.
  - rewrite VM. set (n := INR nb). set (P := INR (List.length (patch_sims r))).
    assert (n0 : n <> 0) by (apply not_0_INR; lia). assert (P0 : P <> 0) by (apply not_0_INR; lia).
    assert (E1 : Rsum (fvnsim r) = Rsum (map (fun k => Rsum (map (fun p : PatchSim RN => nth k (freq_band_means p) 0) (patch_sims r))) (seq 0 nb)) / P).
    { rewrite <- Rsum_div, map_map. rewrite (nth_map_seq (fvnsim r)). f_equal. replace (@List.length R (fvnsim r)) with nb by (exact (eq_sym L1)).
      apply map_ext_in. intros k Hk. apply in_seq in Hk. etransitivity; [exact (N1 k 0 ltac:(lia))|]. etransitivity; [exact (LN k ltac:(lia) (freq_band_means (N:=RN)))|].
      exact (mean_map_len (fun p : PatchSim RN => nth k (freq_band_means p) 0) (patch_sims r)). }
    unfold mean_of at 1. rewrite E1. replace (INR (@List.length R (fvnsim r))) with n by (unfold n; f_equal; exact (eq_sym L1)).
    etransitivity; [|symmetry; exact (mean_map_len (similarity (N:=RN)) (patch_sims r))].
    fold P.
    assert (E2 : map (fun p : PatchSim RN => Rsum (map (fun k => nth k (freq_band_means p) 0) (seq 0 nb))) (patch_sims r) = map (fun p : PatchSim RN => n * similarity p) (patch_sims r)).
    { apply map_ext_in. intros p Hp. rewrite Forall_forall in SA. destruct (SA p Hp) as (A1 & _ & _ & _ & _ & _ & _ & A8). rewrite A8.
      transitivity (Rsum (freq_band_means p)).
      - f_equal. symmetry. etransitivity; [apply nth_map_seq|]. exact (f_equal (fun n => map (fun k => nth k (freq_band_means p) 0) (seq 0 n)) A1).
      - unfold mean_of. replace (INR (@List.length R (freq_band_means p))) with n by (unfold n; f_equal; exact (eq_sym A1)). field. exact n0. }
    assert (E3 : Rsum (map (fun k => Rsum (map (fun p : PatchSim RN => nth k (freq_band_means p) 0) (patch_sims r))) (seq 0 nb)) = n * Rsum (map (similarity (N:=RN)) (patch_sims r))).
    { etransitivity; [exact (Rsum_swap (fun k (p : PatchSim RN) => nth k (freq_band_means p) 0) (seq 0 nb) (patch_sims r))|].
      etransitivity; [exact (f_equal Rsum E2)|].
      etransitivity; [|apply Rsum_scale]. f_equal. symmetry. exact (map_map (similarity (N:=RN)) (fun x => n * x) (patch_sims r)). }
    etransitivity; [exact (f_equal (fun x => x / P / n) E3)|]. cbn beta.
    assert (E4 : forall S : R, n * S / P / n = S / P) by (intros; field; auto). exact (E4 (Rsum (map (similarity (N:=RN)) (patch_sims r)))).
Qed.
