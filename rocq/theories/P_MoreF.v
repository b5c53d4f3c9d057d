(** C08 and C67 in binary64. *)
From Coq Require Import Reals Lra Lia.
From Flocq Require Import Core IEEE754.BinarySingleNaN.
From Verif Require Import Base Num F64 RNum M_Audio M_Nsim M_Visqol Spec Spec14.
From Verif Require Import P_Base P_F64 P_Audio P_Audio2 P_Win P_NsimF P_LevelF P_React P_AggF.
Open Scope R_scope.

(** ** C08 *)
Lemma frame_vals c (vs : list Z) n i : List.length vs = (n * c)%nat -> (i < n)%nat ->
  firstn c (skipn (i * c) vs) = map (fun j => nth (i * c + j) vs 0%Z) (seq 0 c).
Proof.
  intros L Hi. apply (nth_ext _ _ 0%Z 0%Z).
  - rewrite firstn_length, skipn_length, map_length, seq_length. nia.
  - intros k Hk. rewrite firstn_length, skipn_length in Hk. rewrite nth_firstn_lt by lia. rewrite nth_skipn. rewrite nth_map_seq0 by lia. reflexivity.
Qed.
Lemma Rsum_near (f g : nat -> R) e : 0 <= e -> forall l, (forall j, In j l -> Rabs (f j - g j) <= e) -> Rabs (Rsum (map f l) - Rsum (map g l)) <= INR (List.length l) * e.
Proof.
  intros He. induction l as [|a l IH]; intros H; [cbn [map Rsum fold_right List.length INR]; rewrite Rminus_0_r, Rabs_R0; lra|].
  cbn [map Rsum fold_right List.length]. rewrite S_INR. specialize (IH (fun j Hj => H j (or_intror Hj))). specialize (H a (or_introl eq_refl)).
  apply Rabs_le_inv in IH, H. unfold Rsum in IH. apply Rabs_le. lra.
Qed.
Lemma C08_mean_near lm c rate vs n s i : (1 <= Z.of_nat c <= 65535)%Z -> List.length vs = (n * c)%nat ->
  Forall (fun v => -32768 <= v <= 32767)%Z vs ->
  load_as_mono (N:=F64 lm) (WavOk (Z.of_nat c) rate 16 (map Some vs)) = Ok s -> (i < n)%nat ->
  exists x : f64, nth_error (data_matrix s) i = Some x /\ is_finite x = true /\
    Rabs (B2R x - Rsum (map (fun j => IZR (nth (i * c + j) vs 0%Z) / 32767) (seq 0 c)) / INR c) <= bpow radix2 (-34).
Proof.
  intros Hc L F H Hi. destruct (load_nth c rate vs n s ltac:(lia) L F H) as (L1 & _ & E1). eexists. split; [exact (E1 i Hi)|]. clear E1 H.
  rewrite (frame_vals c vs n i L Hi), map_map.
  set (fr := map (fun j => ndiv (F64 lm) (nofZ (F64 lm) (nth (i * c + j) vs 0%Z)) (nofZ (F64 lm) 32767)) (seq 0 c)).
  assert (SV : forall j, (j < c)%nat -> let v := nth (i * c + j) vs 0%Z in
     is_finite (Bdiv mode_NE (f64_ofZ v) (f64_ofZ 32767)) = true /\ Rabs (B2R (Bdiv mode_NE (f64_ofZ v) (f64_ofZ 32767)) - IZR v / 32767) <= bpow radix2 (1 - 53) /\ Rabs (IZR v / 32767) <= 2).
  { intros j Hj v. assert (Hv : (-32768 <= v <= 32767)%Z) by (rewrite Forall_forall in F; apply F, nth_In; nia).
    destruct (sample_fin v Hv) as [F1 E1]. split; [exact F1|]. rewrite E1.
    assert (B : Rabs (IZR v / 32767) <= 2). { assert (-32768 <= IZR v <= 32767) by (split; apply IZR_le; lia). apply Rabs_le. unfold Rdiv. split; nra. }
    split; [|exact B]. apply rnd_err; [lia|change (bpow radix2 1) with 2; exact B]. }
  assert (B52 : bpow radix2 (1 - 53) = / 4503599627370496) by (apply (bpn 52); reflexivity || lia).
  assert (LF : zlen fr = Z.of_nat c) by (unfold zlen, fr; rewrite map_length, seq_length; reflexivity).
  assert (U53 : uu = / 9007199254740992) by (apply uu_val).
  assert (SL : Forall similarity_like fr).
  { apply Forall_forall. intros x Hx. apply in_map_iff in Hx as (j & <- & Hj). apply in_seq in Hj. destruct (SV j ltac:(lia)) as (A & B & _). split; [exact A|].
    set (v := nth (i * c + j) vs 0%Z) in *. assert (Hv : (-32768 <= v <= 32767)%Z) by (rewrite Forall_forall in F; apply F, nth_In; nia).
    assert (-32768 <= IZR v <= 32767) by (split; apply IZR_le; lia). assert (BV : -1.5 <= IZR v / 32767 <= 1.5) by (unfold Rdiv; split; lra).
    change (ndiv (F64 lm) (nofZ (F64 lm) v) (nofZ (F64 lm) 32767)) with (Bdiv mode_NE (f64_ofZ v) (f64_ofZ 32767)). rewrite B52 in B. apply Rabs_le_inv in B. apply Rabs_le. lra. }
  assert (LB : (1 <= zlen fr <= 2 ^ 20)%Z) by (rewrite LF; lia).
  destruct (nd_mean_ap lm fr SL LB) as [A B]. change (num (F64 lm)) with f64 in *. rewrite LF in A, B. split; [exact A|].
  match goal with |- Rabs (B2R ?t - _) <= _ => change (Rabs (B2R t - mean_R (map (fun x : f64 => B2R x) fr)) <= uu * (4 * IZR (Z.of_nat c) + 4)) in B end.
  assert (C1 : 1 <= IZR (Z.of_nat c) <= 65535) by (split; [apply (IZR_le 1)|apply (IZR_le _ 65535)]; lia).
  assert (M : Rabs (mean_R (map (fun x : f64 => B2R x) fr) - Rsum (map (fun j => IZR (nth (i * c + j) vs 0%Z) / 32767) (seq 0 c)) / INR c) <= bpow radix2 (1 - 53)).
  { unfold mean_R. replace (zlen (map (fun x : f64 => B2R x) fr)) with (Z.of_nat c) by (unfold zlen in *; rewrite map_length; auto).
    unfold fr. rewrite map_map. rewrite INR_IZR_INZ.
    pose proof (Rsum_near (fun j => B2R (ndiv (F64 lm) (nofZ (F64 lm) (nth (i * c + j) vs 0%Z)) (nofZ (F64 lm) 32767))) (fun j => IZR (nth (i * c + j) vs 0%Z) / 32767) (bpow radix2 (1 - 53))
       (bpow_ge_0 _ _) (seq 0 c)) as Q. rewrite seq_length, INR_IZR_INZ in Q.
    match type of Q with _ -> Rabs (?a - ?b) <= _ => set (sa := a) in *; set (sb := b) in * end.
    match goal with |- Rabs (?a / _ - _) <= _ => change a with sa end.
    assert (Q' : Rabs (sa - sb) <= IZR (Z.of_nat c) * bpow radix2 (1 - 53)). { apply Q. intros j Hj. apply in_seq in Hj. destruct (SV j ltac:(lia)) as (_ & W & _). exact W. }
    replace (sa / IZR (Z.of_nat c) - sb / IZR (Z.of_nat c)) with ((sa - sb) / IZR (Z.of_nat c)) by (field; lra).
    unfold Rdiv. rewrite Rabs_mult, (Rabs_pos_eq (/ _)) by (left; apply Rinv_0_lt_compat; lra). apply Rmult_le_reg_r with (IZR (Z.of_nat c)); [lra|].
    rewrite Rmult_assoc, Rinv_l, Rmult_1_r by lra. lra. }
  assert (B34 : bpow radix2 (-34) = / 17179869184) by (apply (bpn 34); reflexivity || lia).
  rewrite B52 in M. rewrite U53 in B. rewrite B34. apply Rabs_le_inv in M, B. apply Rabs_le. lra.
Qed.

(** ** C67 *)
Lemma exp_cap K s t : 0 < K -> Rabs (Rmin K (exp s) - Rmin K (exp t)) <= K * Rabs (s - t).
Proof.
  intros HK. assert (E : forall u, Rmin K (exp u) = exp (Rmin (ln K) u)).
  { intros u. unfold Rmin at 2. destruct (Rle_dec (ln K) u) as [L|L].
    - rewrite exp_ln by exact HK. apply Rmin_left. rewrite <- (exp_ln K) by exact HK. destruct L as [L|L]; [left; apply exp_increasing; exact L|right; rewrite L; reflexivity].
    - apply Rmin_right. rewrite <- (exp_ln K) by exact HK. left. apply exp_increasing. lra. }
  rewrite !E. eapply Rle_trans; [apply (exp_lip_up _ _ (ln K)); apply Rmin_l|]. rewrite exp_ln by exact HK. apply Rmult_le_compat_l; [lra|].
  unfold Rmin. repeat destruct (Rle_dec _ _); unfold Rabs; repeat destruct (Rcase_abs _); lra.
Qed.
Lemma score_lip sc x y : Rabs (wideband_score sc x - wideband_score sc y) <= (if sc then 17 else 18.1) * Rabs (x - y).
Proof.
  set (s := if sc then 1.2031409 else 1). set (K := 5 / s - 1.1559455).
  assert (S : 1 <= s <= 1.21) by (unfold s; destruct sc; lra).
  assert (HK : 0 < K < 3.9 /\ s * K * 4.6851153 <= if sc then 17 else 18.1) by (unfold K, s; destruct sc; lra).
  assert (W : forall x, wideband_score sc x = s * (1.1559455 + Rmin K (exp (4.6851153 * (x - 0.7655232))))).
  { intros z. unfold wideband_score, speech_curve. fold s. set (e := exp _). assert (0 < e) by apply exp_pos.
    rewrite (Rmax_right 1) by nra. assert (5 = s * (1.1559455 + K)) by (unfold K; field; lra).
    unfold Rmin. repeat destruct (Rle_dec _ _); nra. }
  rewrite !W. rewrite <- Rmult_minus_distr_l, Rabs_mult, (Rabs_pos_eq s) by lra.
  pose proof (exp_cap K (4.6851153 * (x - 0.7655232)) (4.6851153 * (y - 0.7655232)) (proj1 (proj1 HK))) as E.
  replace (4.6851153 * (x - 0.7655232) - 4.6851153 * (y - 0.7655232)) with (4.6851153 * (x - y)) in E by ring.
  rewrite Rabs_mult, (Rabs_pos_eq 4.6851153) in E by lra.
  match type of E with Rabs (?a - ?b) <= _ => replace (1.1559455 + a - (1.1559455 + b)) with (a - b) by ring end.
  pose proof (Rabs_pos (x - y)). apply Rle_trans with (s * (K * (4.6851153 * Rabs (x - y)))); [apply Rmult_le_compat_l; lra|]. nra.
Qed.
Lemma react_f64 lm nb u w (m m1 m2 : Manager (F64 lm)) calls1 calls2 pf files1 files2 a b c d r s : exp_close lm -> new_manager nb (Wideband u) w = Ok m ->
  run pf nb files1 (after_calls pf nb m calls1) a b = (m1, Ok r) -> run pf nb files2 (after_calls pf nb m calls2) c d = (m2, Ok s) ->
  (1 <= nb <= 1024)%nat -> Forall similarity_like (fvnsim r) -> Forall similarity_like (fvnsim s) ->
  Bltb (vnsim r) (f64_lit 15 2) = false -> Bltb (vnsim s) (f64_lit 15 2) = false ->
  Rabs (B2R (moslqo r : f64) - B2R (moslqo s : f64)) <= (if u then 18.1 else 17) * Rabs (B2R (vnsim r : f64) - B2R (vnsim s : f64)) + bpow radix2 (-23).
Proof.
  intros HE Hm H K Hn Fr Fs Vr Vs.
  destruct (score_f64 _ _ _ _ _ _ _ _ _ _ _ _ HE Hm H Hn Fr) as (_ & _ & A). destruct (score_f64 _ _ _ _ _ _ _ _ _ _ _ _ HE Hm K Hn Fs) as (_ & _ & B).
  rewrite Vr in A. rewrite Vs in B. pose proof (score_lip (negb u) (B2R (vnsim r : f64)) (B2R (vnsim s : f64))) as L.
  assert (E : bpow radix2 (-23) = 2 * bpow radix2 (-24)) by (change (-23)%Z with (1 + -24)%Z; rewrite bpow_plus; reflexivity). rewrite E.
  apply Rabs_le_inv in A, B, L. apply Rabs_le. destruct u; cbn [negb] in *; lra.
Qed.
Lemma jump_f64 lm nb u w (m m1 m2 : Manager (F64 lm)) calls1 calls2 pf files1 files2 a b c d r s : exp_close lm -> new_manager nb (Wideband u) w = Ok m ->
  run pf nb files1 (after_calls pf nb m calls1) a b = (m1, Ok r) -> run pf nb files2 (after_calls pf nb m calls2) c d = (m2, Ok s) ->
  (1 <= nb <= 1024)%nat -> Forall similarity_like (fvnsim r) -> Forall similarity_like (fvnsim s) ->
  Bltb (vnsim r) (f64_lit 15 2) = true -> Bltb (vnsim s) (f64_lit 15 2) = false ->
  (if u then 0.21 else 0.45) < B2R (moslqo s : f64) - B2R (moslqo r : f64).
Proof.
  intros HE Hm H K Hn Fr Fs Vr Vs.
  destruct (score_f64 _ _ _ _ _ _ _ _ _ _ _ _ HE Hm H Hn Fr) as (_ & _ & A). rewrite Vr in A.
  pose proof (gap_hi _ _ _ _ _ _ _ _ _ _ _ _ HE Hm K Hn Fs Vs) as B. rewrite A. destruct u; lra.
Qed.
