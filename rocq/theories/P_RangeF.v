(** C54 in binary64: the reported similarities agree with each other up to rounding. *)
From Coq Require Import Reals Lra Lia.
From Flocq Require Import Core IEEE754.BinarySingleNaN.
From Verif Require Import Base Num Mat F64 RNum M_Audio M_Align M_Spectro M_Patch M_Nsim M_Selector M_Visqol Spec Spec14.
From Verif Require Import P_Base P_Mat P_F64 P_R P_Manager P_Score P_Agg P_Run P_Same P_Range P_Win P_NsimF P_LevelF P_AggF P_MoreF.
Open Scope R_scope.

(** ** Every patch: its similarity is the computed mean of its bands *)
Definition agrees {N : NumOps} (p : PatchSim N) : Prop :=
  (freq_band_means p <> [] /\ similarity p = ndiv N (nd_sum (freq_band_means p)) (nofZ N (zlen (freq_band_means p))) \/
   similarity p = nofZ N 0 /\ Forall (fun x => x = nofZ N 0) (freq_band_means p)) /\
  Forall (fun x => exists y, x = nsqrt N y) (freq_band_stddevs p).
Section Gen.
Context {N : NumOps}.
Lemma measure_agrees (a b : mat N) p : measure_patch_similarity a b = Ok p -> agrees p.
Proof.
  unfold measure_patch_similarity. intros H. inv_do H. inv_do Hk. inv_do Hk0. inv_do Hk. inv_do Hk0. injection Hk as <-.
  unfold agrees, new_patch_sim. cbn [freq_band_means freq_band_stddevs similarity]. split.
  - left. unfold nd_mean in Hv3. destruct v1 as [|x t]; [discriminate|]. injection Hv3 as <-. split; [discriminate|reflexivity].
  - unfold std_axis1 in Hv2. destruct (Nat.eqb _ _); [discriminate|]. injection Hv2 as <-.
    apply Forall_forall. intros x Hx. apply in_map_iff in Hx as (row & <- & _). eauto.
Qed.
Lemma set_times_agrees (p : PatchSim N) l o r fd pd : agrees p -> agrees (set_times p l o r fd pd).
Proof.
  intros [A B]. unfold agrees, set_times. cbn [freq_band_means freq_band_stddevs similarity]. split; [|exact B].
  destruct l; [|exact A]. right. split; [reflexivity|]. apply Forall_forall. intros x Hx. apply repeat_spec in Hx. exact Hx.
Qed.
Lemma backtrace_agrees pf rp idx (deg : mat N) bt fd pd k : forall lo acc out, Forall agrees acc ->
  backtrace_loop pf rp idx deg bt fd pd k lo acc = Ok out -> Forall agrees out.
Proof.
  induction k; cbn [backtrace_loop]; intros lo acc out Hacc H; [injection H as <-; auto|].
  do 7 (inv_do H; match goal with H2 : _ = Ok out |- _ => rename H2 into H end).
  apply IHk in H; auto. constructor; auto. apply set_times_agrees. eapply measure_agrees; eauto.
Qed.
Lemma find_agrees pf rp idx (deg : mat N) fd r out :
  find_most_optimal_deg_patches pf rp idx deg fd r = Ok out -> Forall agrees out.
Proof.
  intros H. unfold find_most_optimal_deg_patches in H.
  do 3 (inv_do H; match goal with H2 : _ = Ok out |- _ => rename H2 into H end).
  destruct (Z.eqb_spec v1 0); [discriminate|].
  do 2 (inv_do H; match goal with H2 : _ = Ok out |- _ => rename H2 into H end).
  destruct v3 as [dp bt].
  do 6 (inv_do H; match goal with H2 : _ = Ok out |- _ => rename H2 into H end).
  eapply backtrace_agrees; [|exact H]. constructor.
Qed.
Lemma realign_agrees pf nb rs ds w (f f' : Filterbank N) old p : agrees old ->
  realign_patch pf nb rs ds w f old = (f', Ok p) -> agrees p.
Proof.
  intros Ho H. apply realign_inv in H as [->|(ra & da & ra' & da' & lag & fb1 & rspec & fb2 & dspec & rp & dp & new & _ & _ & _ & B1 & B2 & PR & ME & NL & ->)]; auto.
  apply measure_agrees in ME. unfold choose_result. rewrite NL. exact ME.
Qed.
Lemma finely_agrees pf nb rs ds w l : forall (f f' : Filterbank N) out, Forall agrees l ->
  finely_align_and_recreate_patches pf nb rs ds w f l = (f', Ok out) -> Forall agrees out.
Proof.
  induction l as [|old t IH]; intros f f' out Hl; cbn [finely_align_and_recreate_patches].
  { intros [= _ <-]. constructor. }
  destruct (realign_patch pf nb rs ds w f old) as [fb1 r] eqn:E.
  destruct r as [p| |]; try discriminate.
  destruct (finely_align_and_recreate_patches pf nb rs ds w fb1 t) as [fb2 rest] eqn:E2.
  intros [= _ H]. inv_do H. injection Hk as <-. subst rest. inversion Hl; subst. constructor.
  - eapply realign_agrees; eauto.
  - eapply IH; eauto.
Qed.
Lemma run_agrees pf nb files (m m' : Manager N) a b r : run pf nb files m a b = (m', Ok r) -> Forall agrees (patch_sims r).
Proof.
  intros H. pose proof (run_parts _ _ _ _ _ _ _ _ H) as (rs & ds & al & lag & fb1 & fb2 & fb3 & rspec & dspec & rprep & dprep & idx & patches & info & Q). cbv zeta in Q.
  destruct Q as (_ & _ & _ & _ & B1 & B2 & PR & _ & CP & FI & FA & MM & SD & _ & _).
  eapply finely_agrees; [|exact FA]. eapply find_agrees; exact FI.
Qed.
End Gen.

(** ** Means up to rounding *)
Lemma F2_length {A B} (R : A -> B -> Prop) l l' : Forall2 R l l' -> List.length l = List.length l'.
Proof. induction 1; cbn [List.length]; congruence. Qed.
Lemma sqrt_not_neg (y : f64) : Bltb (Bsqrt mode_NE y : f64) (f64_ofZ 0) = false.
Proof.
  destruct (Bltb y (f64_ofZ 0)) eqn:E; [|apply Bsqrt_not_neg; exact E].
  destruct y as [s|s| |s m e H]; try (destruct s; vm_compute; reflexivity); [vm_compute; reflexivity|].
  destruct s; [reflexivity|]. vm_compute in E. discriminate.
Qed.

Lemma low_sim x : near_similarity x -> similarity_like x.
Proof. intros [F H]. split; [exact F|lra]. Qed.
Lemma mean_R_const0 (l : list R) : Forall (fun x => x = 0) l -> mean_R l = 0.
Proof.
  intros H. unfold mean_R. replace (Rsum l) with 0; [unfold Rdiv; ring|].
  induction H as [|x t -> _ IH]; [reflexivity|]. rewrite Rsum_cons, <- IH. ring.
Qed.
Lemma mean_R_bound (l : list R) B : l <> [] -> Forall (fun x => Rabs x <= B) l -> Rabs (mean_R l) <= B.
Proof.
  intros NE H. unfold mean_R. assert (L : 0 < IZR (zlen l)). { apply (IZR_lt 0). destruct l; [congruence|]. rewrite zlen_cons. pose proof (zlen_nonneg l). lia. }
  assert (S : Rabs (Rsum l) <= B * IZR (zlen l)).
  { clear NE L. induction H as [|x t Hx _ IH]; [unfold Rsum; cbn; rewrite Rabs_R0; change (zlen (@nil R)) with 0%Z; lra|].
    rewrite Rsum_cons, zlen_cons, plus_IZR. eapply Rle_trans; [apply Rabs_triang|]. lra. }
  unfold Rdiv. rewrite Rabs_mult, (Rabs_pos_eq (/ IZR (zlen l))) by (left; apply Rinv_0_lt_compat; lra).
  apply Rmult_le_reg_r with (IZR (zlen l)); [lra|]. rewrite Rmult_assoc, Rinv_l, Rmult_1_r by lra. exact S.
Qed.
Lemma mean_R_near (l l' : list R) e : Forall2 (fun x y => Rabs (x - y) <= e) l l' -> l <> [] -> Rabs (mean_R l - mean_R l') <= e.
Proof.
  intros H NE. assert (E : zlen l' = zlen l) by (unfold zlen; rewrite (F2_length _ _ _ H); reflexivity).
  assert (L : 0 < IZR (zlen l)). { apply (IZR_lt 0). destruct l; [congruence|]. rewrite zlen_cons. pose proof (zlen_nonneg l). lia. }
  unfold mean_R. rewrite E.
  assert (S : Rabs (Rsum l - Rsum l') <= e * IZR (zlen l)).
  { clear NE L E. induction H as [|x y t t' Hx _ IH]; [unfold Rsum; cbn; rewrite Rminus_0_r, Rabs_R0; change (zlen (@nil R)) with 0%Z; lra|].
    rewrite !Rsum_cons, zlen_cons, plus_IZR. replace (x + Rsum t - (y + Rsum t')) with ((x - y) + (Rsum t - Rsum t')) by ring.
    eapply Rle_trans; [apply Rabs_triang|]. lra. }
  replace (Rsum l / IZR (zlen l) - Rsum l' / IZR (zlen l)) with ((Rsum l - Rsum l') / IZR (zlen l)) by (unfold Rdiv; ring).
  unfold Rdiv. rewrite Rabs_mult, (Rabs_pos_eq (/ IZR (zlen l))) by (left; apply Rinv_0_lt_compat; lra).
  apply Rmult_le_reg_r with (IZR (zlen l)); [lra|]. rewrite Rmult_assoc, Rinv_l, Rmult_1_r by lra. exact S.
Qed.

Lemma patch_mean_f64 lm nb (p : PatchSim (F64 lm)) : agrees p -> List.length (freq_band_means p) = nb -> (1 <= nb <= 1024)%nat ->
  Forall similarity_like (freq_band_means p) ->
  is_finite (similarity p : f64) = true /\ Rabs (B2R (similarity p : f64) - mean_R (map (fun x : f64 => B2R x) (freq_band_means p))) <= bpow radix2 (-40).
Proof.
  intros [[(NE & ->)|(-> & Z0)] _] L Hnb HF.
  - pose proof (nd_mean_ap lm (freq_band_means p) HF) as D.
    assert (LZ : zlen (freq_band_means p) = Z.of_nat nb) by (unfold zlen; rewrite L; reflexivity).
    match type of D with ?P -> _ => assert (Q : P) by (change (num (F64 lm)) with f64 in *; lia); specialize (D Q) end.
    destruct D as [F E]. split; [exact F|]. eapply Rle_trans; [exact E|].
    change (num (F64 lm)) with f64 in *. rewrite LZ, bm40, uu_val. assert (IZR (Z.of_nat nb) <= 1024) by (apply (IZR_le _ 1024); lia). lra.
  - split; [apply ofZ_fin; lia|]. rewrite mean_R_const0.
    + change (Rabs (B2R (f64_ofZ 0) - 0) <= bpow radix2 (-40)). rewrite ofZ_B2R by lia. rewrite Rminus_0_r, Rabs_R0. apply bpow_ge_0.
    + apply Forall_forall. intros x Hx. apply in_map_iff in Hx as (y & <- & Hy). rewrite Forall_forall in Z0. rewrite (Z0 y Hy). apply ofZ_B2R. lia.
Qed.
Lemma nth_seq_map (l : list f64) d : map (fun x : f64 => B2R x) l = map (fun k => B2R (nth k l d : f64)) (seq 0 (List.length l)).
Proof.
  induction l as [|a t IH]; [reflexivity|]. cbn [List.length seq map nth]. f_equal. rewrite <- seq_shift, map_map. exact IH.
Qed.
Lemma mean_swap (F : nat -> nat -> R) n P : (1 <= n)%nat -> (1 <= P)%nat ->
  mean_R (map (fun k => mean_R (map (F k) (seq 0 P))) (seq 0 n)) = mean_R (map (fun p => mean_R (map (fun k => F k p) (seq 0 n))) (seq 0 P)).
Proof.
  intros Hn HP. unfold mean_R. unfold zlen. rewrite !map_length, !seq_length.
  assert (E : forall (G : nat -> R) c m, Rsum (map (fun k => G k / c) (seq 0 m)) = Rsum (map G (seq 0 m)) / c).
  { intros G c m. rewrite <- Rsum_div, map_map. reflexivity. }
  rewrite (map_ext (fun k => Rsum (map (F k) (seq 0 P)) / IZR (Z.of_nat (List.length (map (F k) (seq 0 P))))) (fun k => Rsum (map (F k) (seq 0 P)) / IZR (Z.of_nat P)))
    by (intros; rewrite map_length, seq_length; reflexivity).
  rewrite (map_ext (fun p => Rsum (map (fun k => F k p) (seq 0 n)) / IZR (Z.of_nat (List.length (map (fun k => F k p) (seq 0 n))))) (fun p => Rsum (map (fun k => F k p) (seq 0 n)) / IZR (Z.of_nat n)))
    by (intros; rewrite map_length, seq_length; reflexivity).
  rewrite !E. rewrite (Rsum_swap F (seq 0 n) (seq 0 P)). field. split; apply not_0_IZR; lia.
Qed.
Lemma overall_patch_mean_f64 pf lm nb files (m m' : Manager (F64 lm)) a b r : run pf nb files m a b = (m', Ok r) ->
  (1 <= nb <= 1024)%nat -> (zlen (patch_sims r) <= 2 ^ 20)%Z ->
  Forall (fun p : PatchSim (F64 lm) => Forall near_similarity (freq_band_means p)) (patch_sims r) ->
  is_finite (vnsim r : f64) = true /\
  Rabs (B2R (vnsim r : f64) - mean_R (map (fun p : PatchSim (F64 lm) => B2R (similarity p : f64)) (patch_sims r))) <= bpow radix2 (-29).
Proof.
  intros H Hnb Hp HL.
  assert (HF : Forall (fun p : PatchSim (F64 lm) => Forall similarity_like (freq_band_means p)) (patch_sims r)).
  { eapply Forall_impl; [|exact HL]. intros p Q. eapply Forall_impl; [|exact Q]. exact low_sim. }
  pose proof (averages_f64 _ _ _ _ _ _ _ _ _ H Hnb Hp HF) as AV.
  pose proof (C39_shape _ _ _ _ _ _ _ _ H) as (LN & _ & _ & _ & NE & SH).
  pose proof (run_agrees _ _ _ _ _ _ _ _ H) as AG.
  assert (B30 : bpow radix2 (-30) = / 1073741824) by (apply (bpn 30); reflexivity || lia).
  assert (B29 : bpow radix2 (-29) = / 536870912) by (apply (bpn 29); reflexivity || lia).
  pose proof bm40 as B40.
  set (d := f64_ofZ 0) in *. set (P := patch_sims r) in *.
  assert (SM : forall p, In p P -> is_finite (similarity p : f64) = true /\
    Rabs (B2R (similarity p : f64) - mean_R (map (fun x : f64 => B2R x) (freq_band_means p))) <= bpow radix2 (-40)).
  { intros p Hp'. rewrite Forall_forall in AG, HF, SH. apply (patch_mean_f64 lm nb p (AG p Hp')); auto. apply SH. exact Hp'. }
  (* the exact mean of one band over the patches *)
  set (bm := fun k => mean_R (map (fun p : PatchSim (F64 lm) => B2R (nth k (freq_band_means p) d : f64)) P)).
  assert (BM : forall k, (k < nb)%nat -> Rabs (bm k) <= 3 / 2).
  { intros k Hk. apply mean_R_bound; [destruct P; [congruence|discriminate]|]. rewrite Forall_map. rewrite Forall_forall in *. intros p Hp'.
    specialize (HL p Hp'). rewrite Forall_forall in HL. apply HL. apply nth_In. destruct (SH p Hp') as (-> & _). exact Hk. }
  assert (SF : Forall similarity_like (fvnsim r)).
  { apply Forall_forall. intros x Hx. apply (In_nth _ _ d) in Hx as (k & Hk & <-). change (num (F64 lm)) with f64 in *. rewrite LN in Hk. destruct (AV k d Hk) as [F E]. fold (bm k) in E. split; [exact F|].
    pose proof (BM k Hk) as Q. rewrite B30 in E. apply Rabs_le_inv in E, Q. apply Rabs_le. lra. }
  destruct (overall_f64 _ _ _ _ _ _ _ _ _ H Hnb SF) as ((FV & EV) & _ & _).
  split; [exact FV|].
  assert (N1 : Rabs (mean_R (map (fun x : f64 => B2R x) (fvnsim r)) - mean_R (map bm (seq 0 nb))) <= / 1073741824).
  { rewrite (nth_seq_map (fvnsim r) d). change (num (F64 lm)) with f64 in *. rewrite LN. apply mean_R_near.
    - clear - AV B30. assert (Q : forall k, In k (seq 0 nb) -> (k < nb)%nat) by (intros k Hk; apply in_seq in Hk; lia).
      induction (seq 0 nb) as [|k t IH]; cbn [map]; constructor.
      + destruct (AV k d (Q k (or_introl eq_refl))) as [_ E]. rewrite B30 in E. exact E.
      + apply IH. intros k' Hk'. apply Q. right. exact Hk'.
    - destruct nb; [lia|discriminate]. }
  assert (N2 : mean_R (map bm (seq 0 nb)) = mean_R (map (fun p : PatchSim (F64 lm) => mean_R (map (fun x : f64 => B2R x) (freq_band_means p))) P)).
  { set (dp := hd (new_patch_sim [] [] [] (nofZ (F64 lm) 0)) P).
    assert (PS : forall f : PatchSim (F64 lm) -> R, map f P = map (fun i => f (nth i P dp)) (seq 0 (List.length P))).
    { intros f. clear. generalize dp. induction P as [|p t IH]; intros d0; [reflexivity|]. cbn [List.length seq map nth]. f_equal. rewrite <- seq_shift, map_map. exact (IH d0). }
    unfold bm.
    transitivity (mean_R (map (fun k => mean_R (map (fun i => B2R (nth k (freq_band_means (nth i P dp)) d : f64)) (seq 0 (List.length P)))) (seq 0 nb))).
    { f_equal. apply map_ext. intros k. rewrite PS. reflexivity. }
    rewrite (mean_swap (fun k i => B2R (nth k (freq_band_means (nth i P dp)) d : f64))); [|lia|destruct P; [congruence|cbn; lia]].
    rewrite PS. f_equal. apply map_ext_in. intros i Hi. apply in_seq in Hi.
    rewrite (nth_seq_map (freq_band_means (nth i P dp)) d). rewrite Forall_forall in SH. destruct (SH (nth i P dp)) as (LL & _); [apply nth_In; lia|].
    change (num (F64 lm)) with f64 in *. rewrite LL. reflexivity. }
  assert (N3 : Rabs (mean_R (map (fun p : PatchSim (F64 lm) => B2R (similarity p : f64)) P) - mean_R (map (fun p : PatchSim (F64 lm) => mean_R (map (fun x : f64 => B2R x) (freq_band_means p))) P)) <= bpow radix2 (-40)).
  { apply mean_R_near; [|destruct P; [congruence|discriminate]]. clear - SM. induction P as [|p t IH]; cbn [map]; constructor.
    - apply SM. left. reflexivity.
    - apply IH. intros q Hq. apply SM. right. exact Hq. }
  rewrite N2 in N1. rewrite B40 in *. rewrite B29. apply Rabs_le_inv in EV, N1, N3. apply Rabs_le. lra.
Qed.
Lemma run_patch_mean_f64 pf lm nb files (m m' : Manager (F64 lm)) a b r p : run pf nb files m a b = (m', Ok r) -> (1 <= nb <= 1024)%nat -> In p (patch_sims r) ->
  Forall similarity_like (freq_band_means p) ->
  is_finite (similarity p : f64) = true /\
  Rabs (B2R (similarity p : f64) - mean_R (map (fun x : f64 => B2R x) (freq_band_means p))) <= bpow radix2 (-40).
Proof.
  intros H Hnb Hp HF. pose proof (C39_shape _ _ _ _ _ _ _ _ H) as (_ & _ & _ & _ & _ & SH).
  pose proof (run_agrees _ _ _ _ _ _ _ _ H) as AG. rewrite Forall_forall in AG, SH.
  apply (patch_mean_f64 lm nb p (AG p Hp)); auto. apply SH. exact Hp.
Qed.
Lemma run_patch_devs_f64 pf lm nb files (m m' : Manager (F64 lm)) a b r p : run pf nb files m a b = (m', Ok r) -> In p (patch_sims r) ->
  Forall (fun x : f64 => Bltb x (f64_ofZ 0) = false) (freq_band_stddevs p).
Proof.
  intros H Hp. pose proof (run_agrees _ _ _ _ _ _ _ _ H) as AG. rewrite Forall_forall in AG. destruct (AG p Hp) as [_ Q].
  eapply Forall_impl; [|exact Q]. intros x (y & ->). apply sqrt_not_neg.
Qed.
