(** C65: the scores of the shipped model. *)
From Coq Require Import Reals Lra Lia.
From Verif Require Import Base Num RNum M_Audio M_Visqol M_SvrData M_Svr Spec P_Manager P_Score P_Range P_Same P_Same2 P_Run P_Svr.
Open Scope R_scope.

Lemma shipped_len : forallb row_len SUPPORT_VECTORS = true.
Proof. vm_cast_no_check (@eq_refl bool true). Qed.
Lemma shipped_prediction x : List.length x = 32%nat ->
  svr_prediction (N:=RN) shipped_file x = total (term x) SUPPORT_VECTORS + 36816207123583506 / 10000000000000000.
Proof. apply prediction_total, shipped_len. Qed.
Lemma clamp_R (x : R) : nclamp (N:=RN) x (nofZ RN 1) (nofZ RN 5) = Rmin 5 (Rmax 1 x).
Proof.
  unfold nclamp. cbn [nltb nofZ RN]. unfold Rltb. destruct (Rlt_dec x 1).
  - destruct (Rlt_dec 5 1); [lra|]. rewrite Rmax_left, Rmin_right by lra. reflexivity.
  - rewrite Rmax_right by lra. destruct (Rlt_dec 5 x); [rewrite Rmin_left by lra|rewrite Rmin_right by lra]; reflexivity.
Qed.
Lemma shipped_quality x : List.length x = 32%nat ->
  predict_quality (N:=RN) (SvrMapper shipped_model) x = Ok (Rmin 5 (Rmax 1 (total (term x) SUPPORT_VECTORS + 36816207123583506 / 10000000000000000))).
Proof.
  intros L. cbn [predict_quality]. unfold svr_predict. cbn [svr_features svr_value shipped_model].
  assert (Z : (32 <? zlen x)%Z = false) by (unfold zlen; replace (List.length x) with 32%nat by (symmetry; exact L); reflexivity). rewrite Z. cbn [bind].
  change (list (num RN)) with (list R) in *. rewrite (shipped_prediction x L). rewrite clamp_R. reflexivity.
Qed.
Lemma shipped_mapper pf nb ws (m : Manager RN) calls : new_manager nb (Fullband (Some shipped_model)) ws = Ok m ->
  mg_mapper (after_calls pf nb m calls) = SvrMapper shipped_model.
Proof.
  intros H. rewrite reach_mapper.
  unfold new_manager in H. cbn [bind] in H. injection H as <-. reflexivity.
Qed.
Lemma clamp_top (s : R) : s <= 49 / 10 -> Rmin 5 (Rmax 1 s) <= 49 / 10.
Proof. intros H. eapply Rle_trans; [apply Rmin_r|]. apply Rmax_lub; lra. Qed.
Lemma clamp_mid (s a b : R) : 1 <= a -> b <= 5 -> a <= s <= b -> a <= Rmin 5 (Rmax 1 s) <= b.
Proof. intros. rewrite Rmax_right, Rmin_right by lra. lra. Qed.
Lemma quality_upper x : Forall (fun a => -1 <= a <= 1) x -> List.length x = 32%nat ->
  exists q : R, predict_quality (N:=RN) (SvrMapper shipped_model) x = Ok q /\ q <= 49 / 10.
Proof.
  intros F L. eexists. split; [apply (shipped_quality x L)|]. apply clamp_top.
  pose proof (cube_bound SUPPORT_VECTORS x shipped_cube F L) as B. revert B. generalize (total (term x) SUPPORT_VECTORS). intros s B. lra.
Qed.
Lemma C65_upper pf ws files (m m' : Manager RN) calls a b r : new_manager 32 (Fullband (Some shipped_model)) ws = Ok m ->
  run pf 32 files (after_calls pf 32 m calls) a b = (m', Ok r) -> 1 <= moslqo r <= 49 / 10.
Proof.
  intros HM H. pose proof (C54_all _ _ _ _ _ _ _ _ H) as (A & _ & F & _). destruct (C39_shape _ _ _ _ _ _ _ _ H) as (L & _).
  destruct (run_score _ _ _ _ _ _ _ _ H) as (q & PQ & MO). rewrite (shipped_mapper _ _ _ _ _ HM) in PQ.
  destruct (quality_upper (fvnsim r) F L) as (q' & Q & B). rewrite Q in PQ. injection PQ as <-.
  split; [apply A|]. rewrite MO. destruct (nltb RN (vnsim r) (nlit RN 15 2)); [change (1 <= 49 / 10); lra|exact B].
Qed.
Lemma ones_point : point ones = repeat 1 32.
Proof. unfold point, ones. cbn [repeat map]. replace (100 / 100) with 1 by field. reflexivity. Qed.
Lemma quality_ones : exists q, predict_quality (N:=RN) (SvrMapper shipped_model) (repeat 1 32) = Ok q /\ 4731 / 1000 <= q <= 4733 / 1000.
Proof.
  pose proof (point_bounds ones 105032 105064 SUPPORT_VECTORS shipped_ones) as B. rewrite ones_point in B.
  eexists. split; [apply (shipped_quality (repeat 1 32) (repeat_length 1 32))|].
  revert B. generalize (total (term (repeat 1 32)) SUPPORT_VECTORS). intros s B. apply clamp_mid; lra.
Qed.
Lemma quality_dip : exists q, predict_quality (N:=RN) (SvrMapper shipped_model) (point dip) = Ok q /\ 47349 / 10000 <= q <= 4736 / 1000.
Proof.
  pose proof (point_bounds dip 105334 105369 SUPPORT_VECTORS shipped_dip) as B.
  eexists. split; [apply (shipped_quality (point dip)); reflexivity|].
  revert B. generalize (total (term (point dip)) SUPPORT_VECTORS). intros s B. apply clamp_mid; lra.
Qed.
Lemma C65_copy pf ws (m m' : Manager RN) calls files a b (x : AudioSignal RN) r :
  new_manager 32 (Fullband (Some shipped_model)) ws = Ok m -> (0 <= ws <= 2 ^ 20)%Z ->
  load_as_mono (files a) = Ok x -> load_as_mono (files b) = Ok x ->
  (1 <= sample_rate x)%Z -> (sig_len x <= 2 ^ 30)%Z ->
  run pf 32 files (after_calls pf 32 m calls) a b = (m', Ok r) -> 4731 / 1000 <= moslqo r <= 4733 / 1000.
Proof.
  intros HM W La Lb Sr Sl H. destruct (C41_all _ _ _ _ _ _ _ _ _ _ _ _ HM W La Lb Sr Sl H) as (_ & _ & _ & _ & P).
  rewrite <- (reach_mapper pf 32 calls m), (shipped_mapper pf _ _ _ _ HM) in P. destruct quality_ones as (q & Q & B). rewrite Q in P. injection P as <-. exact B.
Qed.
Lemma C65_dip : exists u, List.length u = 32%nat /\ Forall (fun x => 0 <= x <= 1) u /\
  exists qu q1, predict_quality (N:=RN) (SvrMapper shipped_model) u = Ok qu /\ predict_quality (N:=RN) (SvrMapper shipped_model) (repeat 1 32) = Ok q1 /\ q1 + 1 / 1000 < qu.
Proof.
  exists (point dip). split; [reflexivity|]. split.
  - unfold point, dip. cbn [repeat map app]. repeat (apply Forall_cons; [lra|]). apply Forall_nil.
  - destruct quality_ones as (q1 & Q1 & B1). destruct quality_dip as (q & Q & B). exists q, q1. split; [exact Q|]. split; [exact Q1|]. lra.
Qed.
