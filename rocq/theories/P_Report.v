(** C03, C04, C41: the reported score as a function of the reported similarity. *)
From Coq Require Import Reals Lra Lia.
From Verif Require Import Base Num RNum M_Audio M_Align M_Visqol Spec P_Base P_Manager P_R P_Run P_Score P_Agg P_Same2 P_Exp.
Open Scope R_scope.

Lemma wideband_mapper nb u ws (m : Manager RN) : new_manager nb (Wideband u) ws = Ok m -> mg_mapper m = SpeechMapper (negb u).
Proof. unfold new_manager. cbn [bind]. intros H. injection H as <-. reflexivity. Qed.
Lemma nd_mean_R (v : list R) y : nd_mean (N:=RN) v = Some y -> y = mean_R v.
Proof.
  intros H. unfold nd_mean in H. destruct v as [|x t]; [discriminate|].
  assert (E : ndiv RN (nd_sum (N:=RN) (x :: t)) (nofZ RN (@zlen R (x :: t))) = y) by exact (f_equal (fun o : option R => match o with Some z => z | None => 0 end) H).
  rewrite <- E. unfold mean_R. exact (f_equal2 Rdiv (R_nd_sum (x :: t)) eq_refl).
Qed.
Lemma reported_curve pf nb u ws files (m m' : Manager RN) calls a b r : new_manager nb (Wideband u) ws = Ok m ->
  run pf nb files (after_calls pf nb m calls) a b = (m', Ok r) ->
  moslqo r = (if Rlt_dec (vnsim r) 0.15 then 1 else Rmin 5 (Rmax 1 (speech_curve (negb u) (vnsim r)))).
Proof.
  intros Hm H. destruct (after_same pf nb calls m) as (_ & _ & Mp & _).
  apply run_ok in H. destruct H as (rs & ds & al & lag & f & _ & _ & _ & _ & H).
  apply calculate_ok in H. destruct H as (_ & _ & _ & _ & _ & _ & VN & (q & PQ & MQ) & _).
  rewrite Mp, (wideband_mapper _ _ _ _ Hm) in PQ. apply C03_exact_curve in PQ. apply nd_mean_R in VN. rewrite <- VN in PQ.
  rewrite MQ. unfold alter_for_similarity_extremes. cbn [nltb nlit RN].
  match goal with |- context [if ?c then _ else _] => set (k := c) end. destruct (Rlt_dec (vnsim r) 0.15) as [L|L].
  - assert (K : k = true). { unfold k. apply Rltb_true. lra. } rewrite K. reflexivity.
  - assert (K : k = false). { unfold k. apply Rltb_false. lra. } rewrite K. exact PQ.
Qed.
Lemma reported_monotone pf1 pf2 nb1 nb2 u ws1 ws2 files1 files2 (m1 m1' m2 m2' : Manager RN) calls1 calls2 a1 b1 a2 b2 r1 r2 :
  new_manager nb1 (Wideband u) ws1 = Ok m1 -> new_manager nb2 (Wideband u) ws2 = Ok m2 ->
  run pf1 nb1 files1 (after_calls pf1 nb1 m1 calls1) a1 b1 = (m1', Ok r1) -> run pf2 nb2 files2 (after_calls pf2 nb2 m2 calls2) a2 b2 = (m2', Ok r2) ->
  vnsim r1 <= vnsim r2 -> moslqo r1 <= moslqo r2.
Proof.
  intros H1 H2 R1 R2 L. apply (reported_curve _ _ u ws1) in R1; auto. apply (reported_curve _ _ u ws2) in R2; auto. rewrite R1, R2.
  assert (S : speech_curve (negb u) (vnsim r1) <= speech_curve (negb u) (vnsim r2)).
  { unfold speech_curve. assert (exp (4.6851153 * (vnsim r1 - 0.7655232)) <= exp (4.6851153 * (vnsim r2 - 0.7655232))).
    { assert (A : 4.6851153 * (vnsim r1 - 0.7655232) <= 4.6851153 * (vnsim r2 - 0.7655232)) by (apply Rmult_le_compat_l; lra).
      destruct A as [A|A]; [left; apply exp_increasing; exact A|right; f_equal; exact A]. }
    apply Rmult_le_compat_r; [destruct (negb u); lra|lra]. }
  assert (B : forall x, 1 <= Rmin 5 (Rmax 1 x)) by (intros x; apply Rmin_glb; [lra|apply Rmax_l]).
  destruct (Rlt_dec (vnsim r1) 0.15), (Rlt_dec (vnsim r2) 0.15); try lra; [apply B|].
  apply Rle_min_compat_l, Rle_max_compat_l, S.
Qed.
Lemma reported_top pf nb u ws files (m m' : Manager RN) calls a b r : new_manager nb (Wideband u) ws = Ok m ->
  run pf nb files (after_calls pf nb m calls) a b = (m', Ok r) -> vnsim r = 1 ->
  if u then 4.1 < moslqo r < 4.2 else 4.999 < moslqo r < 5.
Proof.
  intros Hm H V. apply (reported_curve _ _ u ws) in H; auto. rewrite V in H. destruct (Rlt_dec 1 0.15); [lra|].
  rewrite curve_raw, r_raw_1 in H. pose proof exp_tpt as T. destruct u; cbn [negb] in H;
  (rewrite Rmax_right, Rmin_right in H; [rewrite H; lra|try rewrite Rmax_right; lra|lra]).
Qed.
Lemma copy_top pf nb u ws files (m m' : Manager RN) calls a b r (x : AudioSignal RN) : new_manager nb (Wideband u) ws = Ok m ->
  (0 <= ws <= 2 ^ 20)%Z -> load_as_mono (files a) = Ok x -> load_as_mono (files b) = Ok x ->
  (1 <= sample_rate x)%Z -> (sig_len x <= 2 ^ 30)%Z ->
  run pf nb files (after_calls pf nb m calls) a b = (m', Ok r) ->
  if u then 4.1 < moslqo r < 4.2 else 4.999 < moslqo r < 5.
Proof.
  intros Hm Hw La Lb Hr Hl H. apply (reported_top pf nb u ws files m m' calls a b r Hm H).
  apply (C41_all pf nb (Wideband u) ws m m' calls files a b x r Hm Hw La Lb Hr Hl H).
Qed.
