(** C35: the two-dimensional convolution. *)
From Coq Require Import Lia.
From Verif Require Import Base Num Mat M_Audio M_Nsim P_Base P_Mat Spec Spec2.

Lemma concat_nth {A} C (d : A) : forall (rows : list (list A)) a b, Forall (fun r => List.length r = C) rows ->
  (a < List.length rows)%nat -> (b < C)%nat -> nth (a * C + b) (List.concat rows) d = nth b (nth a rows []) d.
Proof.
  induction rows as [|r t IH]; intros a b F Ha Hb; cbn [List.length] in Ha; [lia|].
  apply Forall_cons_iff in F as [Fr Ft]. cbn [List.concat]. destruct a as [|a]; cbn [nth].
  - rewrite app_nth1 by lia. f_equal.
  - rewrite app_nth2 by lia. rewrite <- IH by (auto; lia). f_equal. lia.
Qed.

Section Conv.
Context {N : NumOps}.
Notation T := (num N).
Lemma mflat_nth (m : mat N) a b : mat_wf m -> (a < mrows m)%nat -> (b < mcols m)%nat ->
  nth (a * mcols m + b) (mflat m) (nofZ N 0) = mget m a b.
Proof. intros [H1 H2] Ha Hb. unfold mflat, mget. apply concat_nth; auto. lia. Qed.
Lemma boundary_wf (m : mat N) : mat_wf (add_matrix_boundary m) /\ mrows (add_matrix_boundary m) = (mrows m + 2)%nat /\
  mcols (add_matrix_boundary m) = (mcols m + 2)%nat.
Proof. unfold add_matrix_boundary. split; [apply mbuild_wf|]. cbn [mrows mcols mbuild copy_matrix_within_padding]. lia. Qed.
Lemma boundary_get (m : mat N) i j : (1 <= mrows m)%nat -> (1 <= mcols m)%nat -> (i < mrows m + 2)%nat -> (j < mcols m + 2)%nat ->
  mget (add_matrix_boundary m) i j = mget m (Nat.min (i - 1) (mrows m - 1)) (Nat.min (j - 1) (mcols m - 1)).
Proof.
  intros Hr Hc Hi Hj. unfold add_matrix_boundary.
  set (p := copy_matrix_within_padding m 1 1 1 1).
  assert (Pr : mrows p = (mrows m + 2)%nat) by (cbn [p copy_matrix_within_padding mrows mbuild]; lia).
  assert (Pc : mcols p = (mcols m + 2)%nat) by (cbn [p copy_matrix_within_padding mcols mbuild]; lia).
  assert (G : forall i j, (1 <= i <= mrows m)%nat -> (1 <= j <= mcols m)%nat -> mget p i j = mget m (i - 1) (j - 1)).
  { intros a b Ha Hb. unfold p, copy_matrix_within_padding. rewrite mget_mbuild by lia.
    destruct (Nat.leb_spec 1 a); [|lia]. destruct (Nat.ltb_spec a (1 + mrows m)); [|lia].
    destruct (Nat.leb_spec 1 b); [|lia]. destruct (Nat.ltb_spec b (1 + mcols m)); [|lia]. reflexivity. }
  clearbody p. cbv zeta. rewrite Pr, Pc. rewrite mget_mbuild by lia.
  set (p1 := mbuild (mrows m + 2) (mcols m + 2) _).
  assert (G1 : forall i j, (i < mrows m + 2)%nat -> (1 <= j <= mcols m)%nat -> mget p1 i j = mget m (Nat.min (i - 1) (mrows m - 1)) (j - 1)).
  { intros a b Ha Hb. unfold p1. rewrite mget_mbuild by lia.
    destruct (Nat.eqb_spec a 0); [rewrite G by lia; f_equal; lia|].
    destruct (Nat.eqb_spec a (mrows m + 2 - 1)); rewrite G by lia; f_equal; lia. }
  clearbody p1.
  destruct (Nat.eqb_spec j 0); [rewrite G1 by lia; f_equal; lia|].
  destruct (Nat.eqb_spec j (mcols m + 2 - 1)); rewrite G1 by lia; f_equal; lia.
Qed.

Lemma C35_gen (k m : mat N) : mat_wf k -> mrows k = 3%nat -> mcols k = 3%nat -> mat_wf m -> (1 <= mrows m)%nat -> (1 <= mcols m)%nat ->
  exists o, perform_valid_2d_conv_with_boundary k m = Ok o /\ mat_wf o /\ mrows o = mrows m /\ mcols o = mcols m /\
    forall i j, (i < mrows m)%nat -> (j < mcols m)%nat -> mget o i j = conv3 k m i j.
Proof.
  intros Wk Kr Kc Wm Hr Hc. unfold perform_valid_2d_conv_with_boundary. cbv zeta.
  destruct (boundary_wf m) as (Wb & Br & Bc). rewrite Br, Bc, Kr, Kc.
  destruct (Nat.leb_spec 3 (mrows m + 2)); [|lia]. destruct (Nat.leb_spec 3 (mcols m + 2)); [|lia]. cbn [andb].
  eexists. split; [reflexivity|]. split; [apply mbuild_wf|]. cbn [mrows mcols mbuild].
  split; [lia|]. split; [lia|]. intros i j Hi Hj.
  change (mget (mbuild (mrows m + 2 - 3 + 1) (mcols m + 2 - 3 + 1)
    (fun a b => conv_sum (mflat (add_matrix_boundary m)) (mflat k) (mcols m + 2) 3 3 a b)) i j = conv3 k m i j).
  rewrite mget_mbuild by lia.
  assert (F : forall fr fc, (fr < 3)%nat -> (fc < 3)%nat ->
    nth ((fr + i) * (mcols m + 2) + fc + j) (mflat (add_matrix_boundary m)) (nofZ N 0) =
    mget m (Nat.min (i + fr - 1) (mrows m - 1)) (Nat.min (j + fc - 1) (mcols m - 1))).
  { intros fr fc H1 H2. rewrite <- Nat.add_assoc. rewrite <- Bc. rewrite mflat_nth by (auto; lia). rewrite boundary_get by lia.
    f_equal; lia. }
  assert (KF : forall a b, (a < 3)%nat -> (b < 3)%nat -> nth (a * 3 + b) (mflat k) (nofZ N 0) = mget k a b).
  { intros a b H1 H2. rewrite <- Kc. apply mflat_nth; auto; lia. }
  unfold conv_sum, conv3, near. cbn [seq fold_left map fst snd]. change (3 * 3 - 1)%nat with 8%nat. cbn [Nat.pred].
  change (2 - 0)%nat with 2%nat. change (2 - 1)%nat with 1%nat. change (2 - 2)%nat with 0%nat.
  pose proof (KF 0 0 ltac:(lia) ltac:(lia))%nat as K00. change (0 * 3 + 0)%nat with 0%nat in K00. rewrite K00. clear K00.
  pose proof (KF 0 1 ltac:(lia) ltac:(lia))%nat as K01. change (0 * 3 + 1)%nat with 1%nat in K01. rewrite K01. clear K01.
  pose proof (KF 0 2 ltac:(lia) ltac:(lia))%nat as K02. change (0 * 3 + 2)%nat with 2%nat in K02. rewrite K02. clear K02.
  pose proof (KF 1 0 ltac:(lia) ltac:(lia))%nat as K10. change (1 * 3 + 0)%nat with 3%nat in K10. rewrite K10. clear K10.
  pose proof (KF 1 1 ltac:(lia) ltac:(lia))%nat as K11. change (1 * 3 + 1)%nat with 4%nat in K11. rewrite K11. clear K11.
  pose proof (KF 1 2 ltac:(lia) ltac:(lia))%nat as K12. change (1 * 3 + 2)%nat with 5%nat in K12. rewrite K12. clear K12.
  pose proof (KF 2 0 ltac:(lia) ltac:(lia))%nat as K20. change (2 * 3 + 0)%nat with 6%nat in K20. rewrite K20. clear K20.
  pose proof (KF 2 1 ltac:(lia) ltac:(lia))%nat as K21. change (2 * 3 + 1)%nat with 7%nat in K21. rewrite K21. clear K21.
  pose proof (KF 2 2 ltac:(lia) ltac:(lia))%nat as K22. change (2 * 3 + 2)%nat with 8%nat in K22. rewrite K22. clear K22.
  rewrite (F 0 0)%nat by lia.
  rewrite (F 0 1)%nat by lia.
  rewrite (F 0 2)%nat by lia.
  rewrite (F 1 0)%nat by lia.
  rewrite (F 1 1)%nat by lia.
  rewrite (F 1 2)%nat by lia.
  rewrite (F 2 0)%nat by lia.
  rewrite (F 2 1)%nat by lia.
  rewrite (F 2 2)%nat by lia.
  reflexivity.
Qed.
End Conv.
