(** C27 and C38: fine alignment keeps the better result, and the statistics over
    all patches. *)
From Coq Require Import Reals Lra Psatz.
From Flocq Require Import Core BinarySingleNaN.
From Verif Require Import Base Num Mat M_Audio M_Align M_Spectro M_Patch M_Nsim M_Selector M_Visqol.
From Verif Require Import F64 RNum P_Base P_Mat P_Manager P_F64 P_R P_Score P_Vad Spec Spec2 P_Nsim.

Section Gen.
Context {N : NumOps}.
Notation T := (num N).

(** ** Fine alignment *)
Lemma realign_spec pf nb rs ds w (f f' : Filterbank N) old p :
  realign_patch pf nb rs ds w f old = (f', Ok p) ->
  p = old \/ (is_lost old = false /\ exists new lag d1 d2, nltb N (similarity new) (similarity old) = false /\ p = choose_result old new lag d1 d2 /\ similarity p = similarity new).
Proof.
  unfold realign_patch. destruct (is_lost old) eqn:L; [intros [= _ <-]; auto|].
  destruct (slice rs _ _) as [ra| |]; try discriminate. destruct (slice ds _ _) as [da| |]; try discriminate.
  destruct (align_and_truncate pf ra da) as [[[[ra' da'] lag]|]| |]; try discriminate.
  destruct (build nb f ra' w) as [fb1 [rspec| |]]; try discriminate.
  destruct (build nb fb1 da' w) as [fb2 dspec]. intros [= _ H]. inv_do H. inv_do Hk. inv_do Hk0. injection Hk as <-.
  unfold choose_result at 1. destruct (nltb N (similarity v1) (similarity old)) eqn:E; [left; auto|]. right. split; auto.
  exists v1, lag, (get_duration ra'), (get_duration da'). split; auto. unfold choose_result. rewrite E. cbn [similarity]. auto.
Qed.
Lemma C27_gen pf nb rs ds w l : forall (f f' : Filterbank N) out,
  finely_align_and_recreate_patches pf nb rs ds w f l = (f', Ok out) ->
  Forall2 (fun old new => (is_lost old = true -> new = old) /\
    (new = old \/ nltb N (similarity new) (similarity old) = false)) l out.
Proof.
  induction l as [|old t IH]; intros f f' out; cbn [finely_align_and_recreate_patches].
  { intros [= _ <-]. constructor. }
  destruct (realign_patch pf nb rs ds w f old) as [fb1 r] eqn:E.
  destruct r as [p| |]; try discriminate.
  destruct (finely_align_and_recreate_patches pf nb rs ds w fb1 t) as [fb2 rest] eqn:E2.
  intros [= _ H]. inv_do H. injection Hk as <-. constructor; [|eapply IH; rewrite E2, Hv; auto].
  split.
  - intros L. unfold realign_patch in E. rewrite L in E. injection E as _ <-. auto.
  - apply realign_spec in E as [->|(_ & new & lag & d1 & d2 & A & B & C)]; auto. right. rewrite C. auto.
Qed.

(** ** Band averages *)
Lemma add_into_nth (acc v c : list T) : add_into acc v = Ok c ->
  (List.length acc <= List.length v)%nat /\ List.length c = List.length acc /\
  forall b d, (b < List.length acc)%nat -> nth b c d = nadd N (nth b acc d) (nth b v d).
Proof.
  revert v c. induction acc as [|a t IH]; intros [|x v] c; cbn [add_into]; try discriminate.
  - intros [= <-]. cbn. split; [lia|]. split; auto. intros; lia.
  - intros [= <-]. cbn. split; [lia|]. split; auto. intros; lia.
  - intros H. inv_do H. injection Hk as <-. destruct (IH _ _ Hv) as (A & B & C). cbn [List.length]. split; [lia|]. split; [lia|].
    intros [|b] d Hb; cbn [nth]; auto. apply C. lia.
Qed.
Lemma fold_add_nth (get : PatchSim N -> list T) info : forall acc out,
  foldM (fun acc p => add_into acc (get p)) acc info = Ok out ->
  List.length out = List.length acc /\
  forall b d, (b < List.length acc)%nat ->
    nth b out d = fold_left (nadd N) (map (fun p => nth b (get p) d) info) (nth b acc d).
Proof.
  induction info as [|p t IH]; intros acc out H; cbn [foldM] in H.
  { injection H as <-. split; auto. }
  inv_do H. apply add_into_nth in Hv as (A & B & C). destruct (IH _ _ Hk) as (D & E). split; [lia|].
  intros b d Hb. rewrite E by lia. cbn [map fold_left]. rewrite C by lia. auto.
Qed.
Lemma means_nth (info : list (PatchSim N)) out : calc_per_patch_mean_freq_band_means info = Ok out ->
  forall b d, (b < List.length out)%nat ->
    nth b out d = ndiv N (seq_sum (map (fun p => nth b (freq_band_means p) d) info)) (nofZ N (zlen info)).
Proof.
  unfold calc_per_patch_mean_freq_band_means. intros H. inv_do H. inv_do Hk. injection Hk0 as <-.
  apply fold_add_nth in Hv0 as (A & B). intros b d Hb. rewrite map_length in Hb.
  rewrite (nth_indep _ d (ndiv N d (nofZ N (zlen info)))) by (rewrite map_length; auto).
  rewrite (map_nth (fun x => ndiv N x (nofZ N (zlen info)))). f_equal. rewrite A in Hb. rewrite B by auto.
  unfold seq_sum. rewrite repeat_length in Hb. rewrite (nth_indep _ d (nofZ N 0)) by (rewrite repeat_length; auto).
  rewrite nth_repeat. auto.
Qed.
Lemma energy_nth (info : list (PatchSim N)) out : calc_per_patch_mean_freq_band_degraded_energy info = Ok out ->
  forall b d, (b < List.length out)%nat ->
    nth b out d = ndiv N (seq_sum (map (fun p => nth b (freq_band_deg_energy p) d) info)) (nofZ N (zlen info)).
Proof.
  unfold calc_per_patch_mean_freq_band_degraded_energy. intros H. inv_do H. inv_do Hk. injection Hk0 as <-.
  apply fold_add_nth in Hv0 as (A & B). intros b d Hb. rewrite map_length in Hb.
  rewrite (nth_indep _ d (ndiv N d (nofZ N (zlen info)))) by (rewrite map_length; auto).
  rewrite (map_nth (fun x => ndiv N x (nofZ N (zlen info)))). f_equal. rewrite A in Hb. rewrite B by auto.
  unfold seq_sum. rewrite repeat_length in Hb. rewrite (nth_indep _ d (nofZ N 0)) by (rewrite repeat_length; auto).
  rewrite nth_repeat. auto.
Qed.
Lemma C38_run pf nb files (m m' : Manager N) a b r :
  run pf nb files m a b = (m', Ok r) ->
  let n := nofZ N (zlen (patch_sims r)) in
  List.length (fvnsim r) = nb /\ List.length (fvdegenergy r) = nb /\
  (forall k d, (k < nb)%nat -> nth k (fvnsim r) d = ndiv N (seq_sum (map (fun p => nth k (freq_band_means p) d) (patch_sims r))) n) /\
  (forall k d, (k < nb)%nat -> nth k (fvdegenergy r) d = ndiv N (seq_sum (map (fun p => nth k (freq_band_deg_energy p) d) (patch_sims r))) n) /\
  vnsim r = ndiv N (nd_sum (fvnsim r)) (nofZ N (Z.of_nat nb)).
Proof.
  intros H. apply run_ok in H. destruct H as (rs & ds & al & lag & f' & _ & _ & _ & _ & H).
  apply calculate_ok in H. destruct H as (L1 & L2 & L3 & _ & _ & _ & M & _ & A & B & C).
  split; auto. split; auto. split; [|split].
  - intros k d Hk. apply means_nth; auto. lia.
  - intros k d Hk. apply energy_nth; auto. lia.
  - unfold nd_mean in M. rewrite <- L1. unfold zlen in M. destruct (fvnsim r); [discriminate|]. injection M as <-. auto.
Qed.
Lemma std_entries pf (info : list (PatchSim N)) fd out : calc_per_patch_mean_freq_band_std_devs pf info fd = Ok out ->
  Forall (fun x => x = nofZ N 0 \/ exists e, nltb N e (nofZ N 0) = false /\ x = nsqrt N e) out.
Proof.
  unfold calc_per_patch_mean_freq_band_std_devs. intros H. inv_do H. inv_do Hk. inv_do Hk0. destruct v1 as [c tot]. injection Hk as <-.
  apply Forall_forall. intros x Hx. apply in_map_iff in Hx as ([cc f] & <- & _). cbv zeta.
  match goal with |- context [nltb N ?e _] => destruct (nltb N e (nofZ N 0)) eqn:E; [auto|right; exists e; auto] end.
Qed.
End Gen.

Open Scope R_scope.
Lemma Bsqrt_not_neg (e : f64) : Bltb e (f64_ofZ 0) = false -> Bltb (Bsqrt mode_NE e : f64) (f64_ofZ 0) = false.
Proof.
  intros H. destruct (is_finite e) eqn:F.
  - assert (Ne : is_nan e = false) by (destruct e; auto; discriminate).
    assert (P : 0 <= B2R e). { apply Bltb_false in H; auto. rewrite !ext_finite in H by auto. exact H. }
    destruct (Bsqrt_fin e F P) as [A B]. assert (Na : is_nan (Bsqrt mode_NE e : f64) = false) by (destruct (Bsqrt mode_NE e); auto; discriminate).
    apply Bltb_false_iff; auto. rewrite !ext_finite by auto. rewrite B. change (B2R (f64_ofZ 0)) with 0.
    apply round_ge_generic; [apply _|apply _|apply generic_format_0|]. apply sqrt_pos.
  - destruct e as [s|s| |]; try discriminate; try (destruct s); reflexivity.
Qed.
Lemma C38_nonneg pf lm nb files (m m' : Manager (F64 lm)) a b r :
  run pf nb files m a b = (m', Ok r) ->
  List.length (fstdnsim r) = nb /\ Forall (fun x : f64 => Bltb x (f64_ofZ 0) = false) (fstdnsim r).
Proof.
  intros H. apply run_ok in H. destruct H as (rs & ds & al & lag & f' & _ & _ & _ & _ & H).
  apply calculate_ok in H. destruct H as (_ & L & _ & _ & _ & _ & _ & _ & _ & _ & C). split; auto.
  apply std_entries in C. eapply Forall_impl; [|exact C]. cbn beta. intros x [->|(e & He & ->)]; [reflexivity|].
  apply Bsqrt_not_neg. exact He.
Qed.

(** ** Pooled standard deviation in exact arithmetic *)
Definition sumsq (l : list R) : R := Rsum (map (fun x => x * x) l).
Lemma sqdev_sumsq l : l <> [] -> sqdev l = sumsq l - mean_of l * mean_of l * INR (List.length l).
Proof.
  intros H. unfold sqdev, sumsq. set (M := mean_of l). assert (E : Rsum l = M * INR (List.length l)).
  { unfold M, mean_of. field. apply not_0_INR. destruct l; [tauto|discriminate]. }
  rewrite (map_ext (fun x => (x - M) * (x - M)) (fun x => (x * x + (- (2 * M)) * x) + M * M)) by (intros; ring).
  rewrite (Rsum_plus (fun x => x * x + (- (2 * M)) * x) (fun _ => M * M)), (Rsum_plus (fun x => x * x) (fun x => (- (2 * M)) * x)).
  rewrite Rsum_scale, Rsum_map_const, E. ring.
Qed.
Lemma sqdev_nonneg l : 0 <= sqdev l.
Proof. unfold sqdev. apply Rsum_nonneg. apply Forall_forall. intros x Hx. apply in_map_iff in Hx as (y & <- & _). apply Rle_0_sqr. Qed.
Lemma std_sq l : (1 <= List.length l)%nat -> (INR (List.length l) - 1) * (sample_std l * sample_std l) = sqdev l.
Proof.
  intros H. unfold sample_std. destruct (Nat.eq_dec (List.length l) 1) as [E|E].
  - rewrite E. cbn [INR]. rewrite Rminus_diag_eq, Rmult_0_l by auto. destruct l as [|x [|y t]]; try discriminate.
    unfold sqdev, mean_of, Rsum. cbn. field.
  - assert (1 < INR (List.length l)) by (apply (lt_INR 1); lia).
    rewrite sqrt_sqrt; [field; lra|]. apply Rmult_le_pos; [apply sqdev_nonneg|]. left. apply Rinv_0_lt_compat. lra.
Qed.
Lemma mean_concat n (L : list (list R)) : (1 <= n)%nat -> L <> [] -> Forall (fun r => List.length r = n) L ->
  List.length (List.concat L) = (n * List.length L)%nat /\ mean_of (List.concat L) = Rsum (map mean_of L) / INR (List.length L).
Proof.
  intros Hn HL H. assert (E : List.length (List.concat L) = (n * List.length L)%nat /\ Rsum (List.concat L) = INR n * Rsum (map mean_of L)).
  { clear HL. induction H as [|r t Hr Ht IH]; [cbn; split; [lia|unfold Rsum; cbn; ring]|]. destruct IH as [I1 I2]. cbn [List.concat map]. rewrite app_length, Rsum_app, Rsum_cons, I1, I2.
    split; [cbn [List.length]; lia|]. unfold mean_of at 2. rewrite Hr. field. apply not_0_INR. lia. }
  destruct E as [E1 E2]. split; auto. unfold mean_of at 1. rewrite E1, E2, mult_INR. field. split; apply not_0_INR; [|lia]. destruct L; [tauto|discriminate].
Qed.
Lemma sumsq_concat (L : list (list R)) : sumsq (List.concat L) = Rsum (map sumsq L).
Proof. induction L; [reflexivity|]. cbn [List.concat map]. unfold sumsq at 1. rewrite map_app, Rsum_app, Rsum_cons, <- IHL. reflexivity. Qed.

Lemma frame_count_R fd nbands n p rows : 0 < fd -> (Z.of_nat n < 2 ^ 64)%Z -> pooled_patch fd nbands n p rows -> frame_count (N:=RN) fd p = Z.of_nat n.
Proof.
  intros Hfd Hn (_ & _ & _ & _ & E). unfold frame_count, as_usize. cbn [ncast nceil ndiv nsub RN]. rewrite E.
  replace (INR n * fd / fd) with (IZR (Z.of_nat n)) by (rewrite <- INR_IZR_INZ; field; lra).
  rewrite Zceil_IZR, Ztrunc_IZR. lia.
Qed.
Lemma contrib_nth pf (fc : Z) (acc devs means : list R) : (1 <= fc)%Z -> List.length devs = List.length acc -> List.length means = List.length acc ->
  exists out, add_contribution (N:=RN) pf fc acc devs means = Ok out /\ List.length out = List.length acc /\
  forall b, (b < List.length acc)%nat -> nth b out 0 = nth b acc 0 + (IZR fc - 1) * (nth b devs 0 * nth b devs 0) + IZR fc * (nth b means 0 * nth b means 0).
Proof.
  intros Hf. revert devs means. induction acc as [|a t IH]; intros [|dv devs] [|mn means]; try discriminate.
  - intros _ _. exists []. split; [reflexivity|]. split; auto. cbn. intros; lia.
  - intros H1 H2. destruct (IH devs means ltac:(cbn in *; lia) ltac:(cbn in *; lia)) as (o & A & B & C).
    cbn [add_contribution]. rewrite usub_ok by auto. cbn [bind]. rewrite A. cbn [bind]. eexists. split; [reflexivity|]. split; [cbn in *; lia|].
    intros [|b] Hb; cbn [nth]; [|apply C; cbn in Hb; lia]. cbn [nadd nmul nofZ RN]. rewrite minus_IZR. match goal with |- @eq _ ?a ?b => change (@eq R a b) end. ring.
Qed.
Lemma nth_map_lt {A} (f : A -> R) (l : list A) b d : (b < List.length l)%nat -> nth b (map f l) 0 = f (nth b l d).
Proof. intros H. rewrite (nth_indep _ 0 (f d)) by (rewrite map_length; auto). apply map_nth. Qed.
Lemma pooled_fold pf fd nbands n (info : list (PatchSim RN)) vals : 0 < fd -> (1 <= n)%nat ->
  Forall2 (pooled_patch fd nbands n) info vals -> forall acc tot,
  List.length acc = nbands -> (0 <= tot)%Z -> (tot + Z.of_nat n * zlen info < 2 ^ 64)%Z ->
  exists out, foldM (fun (st : list R * Z) p =>
             let '(contribution, total) := st in
             let fc := frame_count (N:=RN) fd p in
             do total' <- uadd pf total fc;
             do c' <- add_contribution (N:=RN) pf fc contribution (freq_band_stddevs p) (freq_band_means p);
             Ok (c', total')) (acc, tot) info = Ok (out, tot + Z.of_nat n * zlen info)%Z /\ List.length out = nbands /\
   forall b, (b < nbands)%nat -> nth b out 0 = nth b acc 0 + Rsum (map (fun rows => sumsq (nth b rows [])) vals).
Proof.
  intros Hfd Hn H. induction H as [|p rows info vals Hp Ht IH]; intros acc tot Ha H0 Ht2.
  { exists acc. cbn [foldM]. rewrite zlen_nil, Z.mul_0_r, Z.add_0_r. split; auto. split; auto. intros. unfold Rsum. cbn. ring. }
  cbn [foldM]. rewrite zlen_cons in *. rewrite Z.mul_add_distr_l, Z.mul_1_r in *.
  assert (0 <= Z.of_nat n * zlen info)%Z by (apply Z.mul_nonneg_nonneg; [apply Nat2Z.is_nonneg|apply zlen_nonneg]).
  assert (Hn64 : (Z.of_nat n < 2 ^ 64)%Z) by lia. rewrite (frame_count_R fd nbands n p rows) by auto. cbv zeta. rewrite uadd_ok by (unfold usize_mod; lia). cbn [bind].
  destruct Hp as (Lr & Fr & Em & Es & _).
  destruct (contrib_nth pf (Z.of_nat n) acc (freq_band_stddevs p) (freq_band_means p)) as (o & A & B & C); [lia|rewrite Es, map_length; lia|rewrite Em, map_length; lia|].
  rewrite A. cbn [bind]. destruct (IH o (tot + Z.of_nat n)%Z (eq_trans B Ha) ltac:(lia) ltac:(lia)) as (out & D & E & F).
  exists out. split; [etransitivity; [exact D|]; do 2 f_equal; ring|]. split; auto. intros b Hb. rewrite F by auto. rewrite C by lia. cbn [map]. rewrite Rsum_cons.
  rewrite Es, Em. rewrite !(nth_map_lt _ rows b []) by lia. set (row := nth b rows []).
  assert (Lrow : List.length row = n). { rewrite Forall_forall in Fr. apply Fr. apply nth_In. lia. }
  pose proof (std_sq row ltac:(lia)) as Q. rewrite sqdev_sumsq in Q by (intros Q0; rewrite Q0 in Lrow; cbn in Lrow; lia).
  rewrite Lrow in Q. rewrite <- INR_IZR_INZ. rewrite Q. ring.
Qed.
Lemma C38_pooled pf fd nbands n (info : list (PatchSim RN)) vals : 0 < fd -> (1 <= n)%nat -> info <> [] ->
  (Z.of_nat n * zlen info < 2 ^ 64)%Z -> Forall2 (pooled_patch fd nbands n) info vals ->
  exists out, calc_per_patch_mean_freq_band_std_devs (N:=RN) pf info fd = Ok out /\ List.length out = nbands /\
    forall b, (b < nbands)%nat -> nth b out 0 = sample_std (List.concat (map (fun rows => nth b rows []) vals)).
Proof.
  intros Hfd Hn Hi Hb H. unfold calc_per_patch_mean_freq_band_std_devs.
  assert (Lm : forall p, In p info -> List.length (freq_band_means p) = nbands).
  { clear - H. induction H as [|p rows i v Hp _ IH]; intros q; [intros []|intros [<-|Hq]; auto]. destruct Hp as (A & _ & B & _). rewrite B, map_length. auto. }
  assert (Hnb : num_bands_of info = Ok nbands).
  { unfold num_bands_of. destruct info as [|p t]; [tauto|]. cbn. f_equal. apply Lm. left; auto. }
  assert (Hm : exists fvn, calc_per_patch_mean_freq_band_means info = Ok fvn /\ List.length fvn = nbands).
  { unfold calc_per_patch_mean_freq_band_means. rewrite Hnb. cbn [bind].
    assert (G : forall acc, List.length acc = nbands -> exists s, foldM (fun acc p => add_into acc (freq_band_means p)) acc info = Ok s /\ List.length s = nbands).
    { clear - Lm. induction info as [|p t IH]; intros acc Ha; cbn [foldM]; [eauto|].
      assert (G : forall (a v : list (num RN)), List.length a = List.length v -> exists c, add_into a v = Ok c /\ List.length c = List.length a).
      { clear. induction a as [|x a IH]; intros [|y v]; try discriminate; cbn [add_into]; [eauto|]. intros Hl. destruct (IH v) as (c & -> & Lc); [exact (eq_add_S _ _ Hl)|]. cbn [bind]. eexists. split; [reflexivity|]. exact (f_equal S Lc). }
      destruct (G acc (freq_band_means p)) as (c & -> & Lc); [rewrite Lm by (left; auto); auto|]. cbn [bind]. apply IH; [intros; apply Lm; right; auto|exact (eq_trans Lc Ha)]. }
    destruct (G (repeat (nofZ RN 0) nbands)) as (s & -> & Ls); [apply repeat_length|]. cbn [bind]. eexists. split; [reflexivity|]. rewrite map_length. auto. }
  destruct Hm as (fvn & Efv & Lfv). rewrite Efv, Hnb. cbn [bind].
  destruct (pooled_fold pf fd nbands n info vals Hfd Hn H (repeat (nofZ RN 0) nbands) 0%Z) as (c & Ec & Lc & Nc); [apply repeat_length|lia|lia|].
  match goal with |- context [bind ?x _] => assert (Ex : x = Ok (c, (0 + Z.of_nat n * zlen info)%Z)) by exact Ec; rewrite Ex; clear Ex end. cbn [bind].
  eexists. split; [reflexivity|]. split; [rewrite map_length, combine_length; change (num RN) with R in *; lia|].
  intros b Hbb. set (tot := (0 + Z.of_nat n * zlen info)%Z).
  set (f := fun cf : R * R => let '(c0, f0) := cf in if Rltb ((c0 - f0 * f0 * IZR tot) / (IZR tot - 1)) 0 then 0 else R_sqrt.sqrt ((c0 - f0 * f0 * IZR tot) / (IZR tot - 1))).
  etransitivity; [apply (nth_map_lt f (combine c fvn) b (0, 0)); rewrite combine_length; lia|].
  rewrite combine_nth by (change (num RN) with R in *; lia).
  assert (N1 : nth b c 0 = Rsum (map (fun rows => sumsq (nth b rows [])) vals)).
  { rewrite Nc by auto. rewrite (nth_indep _ 0 (nofZ RN 0)) by (rewrite repeat_length; auto). rewrite nth_repeat. cbn [nofZ RN]. ring. }
  assert (Lv : List.length vals = List.length info) by (clear - H; induction H; cbn; auto).
  assert (N2 : nth b fvn 0 = Rsum (map (fun rows => mean_of (nth b rows [])) vals) / INR (List.length vals)).
  { etransitivity; [apply (means_nth info fvn Efv b 0); lia|]. rewrite Lv, INR_IZR_INZ. change (ndiv RN) with Rdiv. apply (f_equal2 Rdiv); [|reflexivity].
    etransitivity; [apply seq_sum_R|]. f_equal. clear - H Hbb. induction H as [|p rows i v Hp _ IH]; auto. cbn [map]. f_equal; auto.
    destruct Hp as (A & _ & B & _). rewrite B. apply (nth_map_lt mean_of rows b []). lia. }
  set (L := map (fun rows => nth b rows []) vals).
  assert (FL : Forall (fun r => List.length r = n) L).
  { apply Forall_forall. intros r Hr. apply in_map_iff in Hr as (rows & <- & Hr).
    clear - H Hr Hbb. induction H as [|p rw i v Hp _ IH]; [destruct Hr|]. destruct Hr as [<-|Hr]; auto. destruct Hp as (A & B & _). rewrite Forall_forall in B. apply B. apply nth_In. lia. }
  assert (NL : L <> []). { unfold L. destruct vals; [destruct info; [tauto|discriminate]|discriminate]. }
  destruct (mean_concat n L Hn NL FL) as [ML1 ML2].
  assert (LL : List.length L = List.length vals) by (unfold L; apply map_length).
  assert (Et : IZR tot = INR (List.length (List.concat L))).
  { unfold tot. rewrite ML1, LL, Lv, INR_IZR_INZ. f_equal. rewrite Nat2Z.inj_mul. unfold zlen. ring. }
  assert (NC : List.concat L <> []) by (intros Q; rewrite Q in ML1; cbn in ML1; destruct L; [tauto|cbn in ML1; nia]).
  assert (ES : nth b c 0 - nth b fvn 0 * nth b fvn 0 * IZR tot = sqdev (List.concat L)).
  { rewrite sqdev_sumsq by auto. rewrite sumsq_concat, ML2, Et, N1, N2, LL. unfold L. rewrite !map_map. ring. }
  assert (G : forall c0 f0 : R, c0 - f0 * f0 * IZR tot = sqdev (List.concat L) -> f (c0, f0) = sample_std (List.concat L)); [|exact (G _ _ ES)].
  clear - Et NC. intros c0 f0 Hcf. unfold f. rewrite Hcf, Et. unfold sample_std.
  match goal with |- (if Rltb ?x 0 then _ else _) = _ => assert (P : 0 <= x) end.
  { destruct (Nat.eq_dec (List.length (List.concat L)) 1) as [E1|E1].
    - rewrite E1. cbn [INR]. rewrite (Rminus_diag_eq 1 1) by auto. destruct (List.concat L) as [|x [|y t]]; try discriminate.
      apply Req_le. unfold Rdiv. replace (sqdev [x]) with 0; [ring|]. unfold sqdev, mean_of, Rsum. cbn. field.
    - apply Rmult_le_pos; [apply sqdev_nonneg|]. left. apply Rinv_0_lt_compat. assert (1 < INR (List.length (List.concat L))); [|lra].
      apply (lt_INR 1). destruct (List.concat L); [tauto|cbn in *; lia]. }
  rewrite (proj2 (Rltb_false _ _)) by auto. reflexivity.
Qed.

(** All intermediate results of a successful comparison. *)
Lemma run_parts {N} pf nb files (m m' : Manager N) a b r :
  run pf nb files m a b = (m', Ok r) ->
  exists rs ds al lag fb1 fb2 fb3 rspec dspec rprep dprep idx patches info,
    let w := new_window (sample_rate rs) OVERLAP WINDOW_DURATION in
    let scaled := scale_to_match_sound_pressure_level rs al in
    let fd := calculate_frame_duration (nmul N (nofZ N (win_size w)) (win_overlap w)) (sample_rate rs) in
    load_as_mono (files a) = Ok rs /\ load_as_mono (files b) = Ok ds /\
    sample_rate rs = sample_rate ds /\
    globally_align pf rs ds = Ok (Some (al, lag)) /\
    build nb (mg_filterbank m) rs w = (fb1, Ok rspec) /\
    build nb fb1 scaled w = (fb2, Ok dspec) /\
    prepare_spectrograms_for_comparison rspec dspec = Ok (rprep, dprep) /\
    create_ref_patch_indices pf (mg_creator m) (sp_data rprep) rs w = Ok idx /\
    create_patches_from_indices (creator_patch_size (mg_creator m)) (sp_data rprep) idx = Ok patches /\
    find_most_optimal_deg_patches pf patches idx (sp_data dprep) fd (wrap_i32 (mg_search_window m)) = Ok info /\
    finely_align_and_recreate_patches pf nb rs scaled w fb2 info = (fb3, Ok (patch_sims r)) /\
    calc_per_patch_mean_freq_band_means (patch_sims r) = Ok (fvnsim r) /\
    calc_per_patch_mean_freq_band_std_devs pf (patch_sims r) fd = Ok (fstdnsim r) /\
    calc_per_patch_mean_freq_band_degraded_energy (patch_sims r) = Ok (fvdegenergy r) /\
    res_center_freq_bands r = center_freq_bands rspec.
Proof.
  intros H. apply run_ok in H. destruct H as (rs & ds & al & lag & f' & A1 & A2 & A3 & A4 & H).
  unfold calculate_similarity in H; cbv zeta in H.
  destruct (build nb (mg_filterbank m) rs _) as [fb1 [rspec| |]] eqn:E1; [|discriminate|discriminate].
  match goal with H : context [build nb fb1 ?s ?w] |- _ =>
    destruct (build nb fb1 s w) as [fb2 [dspec| |]] eqn:E2 end; [|discriminate|discriminate].
  match type of H with context [match ?x with Ok _ => _ | Err _ => _ | Panic _ => _ end] =>
    destruct x as [info|e1|] eqn:E3 end; [|discriminate|discriminate].
  match type of H with context [finely_align_and_recreate_patches pf nb rs ?d ?w fb2 ?i] =>
    destruct (finely_align_and_recreate_patches pf nb rs d w fb2 i) as [fb3 r3] eqn:E4 end.
  injection H as _ H.
  do 5 (inv_do H; match goal with H2 : _ = Ok r |- _ => rename H2 into H end).
  destruct (nd_mean v0) eqn:Em; [|discriminate]. cbn [bind] in H. injection H as <-.
  cbn [moslqo vnsim fvnsim fstdnsim fvdegenergy res_center_freq_bands patch_sims].
  subst r3.
  inv_do E3. destruct v4 as [rs' ds']. inv_do Hk. inv_do Hk0.
  exists rs, ds, al, lag, fb1, fb2, fb3, rspec, dspec, rs', ds'. do 3 eexists. cbv zeta.
  repeat (split; [eassumption|]). reflexivity.
Qed.

(** ** Examples *)
From Verif Require Import Witness.
Lemma C27_ex : exists rs ds w fb fb' (l out : list (PatchSim (F64 lm_ex))),
  finely_align_and_recreate_patches Debug 1 rs ds w fb l = (fb', Ok out) /\ List.length out = 2%nat.
Proof.
  destruct (w_summary_some _ _ w_run_wideband) as (m' & s & H & L).
  apply (f_equal snd) in L. cbn [snd] in L.
  apply run_parts in H. destruct H as (rs & ds & al & lag & fb1 & fb2 & fb3 & rspec & dspec & rp & dp & idx & pts & info & H).
  cbv zeta in H. destruct H as (_ & _ & _ & _ & _ & _ & _ & _ & _ & _ & H & _).
  do 7 eexists. split; [exact H|symmetry; exact L].
Qed.
Definition ex_patch (x y : R) : PatchSim RN :=
  @Build_PatchSim RN [mean_of [x; y]] [sample_std [x; y]] [0] 0 1 (1 + 2 * (1 / 50)) 0 0.
Lemma C38_ex :
  (exists m' r, run Debug 1 w_files (w_manager (Wideband false)) "ref.wav" "deg.wav" = (m', Ok r)) /\
  Forall2 (pooled_patch (1 / 50) 1 2) [ex_patch 1 3; ex_patch 2 8] [[[1; 3]]; [[2; 8]]] /\
  sample_std [1; 3; 2; 8] = R_sqrt.sqrt (29 / 3).
Proof.
  split; [destruct (w_summary_some _ _ w_run_wideband) as (m' & s & H & _); eauto|]. split.
  - assert (G : forall x y, pooled_patch (1 / 50) 1 2 (ex_patch x y) [[x; y]]).
    { intros x y. split; [reflexivity|]. split; [repeat constructor|]. split; [reflexivity|]. split; [reflexivity|].
      cbn [ex_patch ref_patch_end_time ref_patch_start_time INR]. match goal with |- @eq _ ?a ?b => change (@eq R a b) end. lra. }
    repeat constructor; apply G.
  - unfold sample_std, sqdev, mean_of, Rsum. cbn. f_equal. field.
Qed.
