(** C63: the filters are stable and the spectrogram is bounded by the peak of the signal. *)
From Coq Require Import Reals Lra Lia Psatz Nsatz.
From Verif Require Import Base Num Mat RNum M_Audio M_Spectro P_Score Spec P_Spectro P_R P_Audio2 P_Bands P_Gain P_Gain2.
Open Scope R_scope.

Definition bounded (X : R) (x : nat -> R) : Prop := forall n, Rabs (x n) <= X.

Lemma contract_bound r B (v : nat -> R) : 0 <= r < 1 -> v 0%nat <= B / (1 - r) ->
  (forall n, v (S n) <= r * v n + B) -> forall n, v n <= B / (1 - r).
Proof.
  intros Hr H0 HS n. induction n as [|n IH]; [exact H0|].
  specialize (HS n). apply Rle_trans with (1 := HS).
  apply Rle_trans with (r * (B / (1 - r)) + B). { apply Rplus_le_compat_r. apply Rmult_le_compat_l; lra. }
  right. field. lra.
Qed.

Lemma stage_bounded E w n0 n1 : 1 < E -> exists K, 0 <= K /\ forall X x, 0 <= X -> bounded X x ->
  bounded (K * X) (stage n0 n1 0 (-2 * cos w / E) (/ (E * E)) x).
Proof.
  intros HE. set (r := / E).
  assert (Hr : 0 <= r < 1). { unfold r. split; [left; apply Rinv_0_lt_compat; lra|]. rewrite <- Rinv_1. apply Rinv_lt_contravar; lra. }
  assert (R1 : 0 < / (1 - r)) by (apply Rinv_0_lt_compat; lra).
  set (A := Rabs n0 + Rabs n1). assert (PA : 0 <= A) by (unfold A; pose proof (Rabs_pos n0); pose proof (Rabs_pos n1); lra).
  exists (A / (1 - r) / (1 - r)). split. { unfold Rdiv. repeat apply Rmult_le_pos; lra. }
  intros X x HX BX. set (e := stage n0 n1 0 (-2 * cos w / E) (/ (E * E)) x).
  set (u := fun n => n0 * x (S n) + n1 * x n).
  assert (UB : forall n, Rabs (u n) <= A * X).
  { intros n. unfold u, A. eapply Rle_trans; [apply Rabs_triang|]. rewrite !Rabs_mult, Rmult_plus_distr_r.
    apply Rplus_le_compat; apply Rmult_le_compat_l; auto using Rabs_pos. }
  assert (AX : 0 <= A * X) by (apply Rmult_le_pos; auto).
  assert (E0 : e 0%nat = n0 * x 0%nat) by (unfold e, stage; cbn [st fst]; ring).
  assert (E1 : e 1%nat = u 0%nat + 2 * r * cos w * e 0%nat).
  { unfold e, stage, u, r. cbn [st fst]. unfold next. cbn [fst snd]. unfold Rdiv. ring. }
  assert (E2 : forall n, e (S (S n)) + - 2 * r * cos w * e (S n) + r * r * e n = u (S n)).
  { intros n. unfold u. rewrite <- (stage_eqn n0 n1 0 (-2 * cos w / E) (/ (E * E)) x n eq_refl). fold e. unfold r. rewrite Rinv_mult. unfold Rdiv. ring. }
  assert (E0B : Rabs (e 0%nat) <= A * X).
  { rewrite E0, Rabs_mult. apply Rmult_le_compat; auto using Rabs_pos. unfold A. pose proof (Rabs_pos n1). lra. }
  assert (P := sin2_cos2 w). unfold Rsqr in P.
  set (v := fun n => nm (e (S n) - r * cos w * e n, r * sin w * e n)).
  assert (VB : forall n, v n <= A * X / (1 - r)).
  { apply contract_bound; auto.
    - unfold v. rewrite E1.
      replace (u 0%nat + 2 * r * cos w * e 0%nat - r * cos w * e 0%nat) with (r * cos w * e 0%nat + u 0%nat) by ring.
      eapply Rle_trans; [apply nm_tri|].
      assert (N0 : nm (r * cos w * e 0%nat, r * sin w * e 0%nat) = r * Rabs (e 0%nat)).
      { unfold nm. cbn [fst snd]. replace (r * cos w * e 0%nat * (r * cos w * e 0%nat) + r * sin w * e 0%nat * (r * sin w * e 0%nat)) with (Rsqr (r * e 0%nat)) by (unfold Rsqr; nsatz).
        rewrite sqrt_Rsqr_abs, Rabs_mult, (Rabs_pos_eq r) by lra. reflexivity. }
      change (num RN) with R in *. rewrite N0. specialize (UB 0%nat).
      apply Rle_trans with (r * (A * X) + A * X). { apply Rplus_le_compat; auto. apply Rmult_le_compat_l; lra. }
      apply Rmult_le_reg_r with (1 - r); [lra|]. unfold Rdiv. rewrite Rmult_assoc, Rinv_l, Rmult_1_r by lra.
      assert (0 <= A * X * (r * r)) by (apply Rmult_le_pos; nra). nra.
    - intros n. unfold v.
      replace (e (S (S n)) - r * cos w * e (S n)) with
        (r * (cos w * (e (S n) - r * cos w * e n) - sin w * (r * sin w * e n)) + u (S n)).
      2:{ rewrite <- E2. nsatz. }
      eapply Rle_trans; [apply nm_tri|]. apply Rplus_le_compat; [|apply UB]. right.
      transitivity (nm (r, 0) * nm (cmul (N:=RN) (cos w, sin w) (e (S n) - r * cos w * e n, r * sin w * e n))).
      + rewrite <- (nm_mul (cx r 0)). f_equal. unfold cmul. cbn [fst snd RN nmul nadd nsub]. change (num RN) with R. f_equal; ring.
      + rewrite (nm_mul (cx (cos w) (sin w))).
        replace (nm (r, 0)) with r by (unfold nm; cbn [fst snd]; rewrite Rmult_0_l, Rplus_0_r, sqrt_square; lra).
        replace (nm (cx (cos w) (sin w))) with 1; [change (num RN) with R; ring|]. unfold nm; cbn [fst snd]. replace (cos w * cos w + sin w * sin w) with 1 by lra. symmetry. apply sqrt_1. }
  intros n. replace (A / (1 - r) / (1 - r) * X) with (A * X / (1 - r) / (1 - r)) by (field; lra).
  revert n. apply (contract_bound r (A * X / (1 - r)) (fun n => Rabs (e n))); auto.
  - apply Rle_trans with (1 := E0B). unfold Rdiv.
    assert (1 <= / (1 - r)). { rewrite <- Rinv_1 at 1. apply Rinv_le_contravar; lra. }
    assert (A * X <= A * X * / (1 - r)) by nra. nra.
  - intros n. specialize (VB n).
    replace (e (S n)) with (r * cos w * e n + (e (S n) - r * cos w * e n)) by ring.
    eapply Rle_trans; [apply Rabs_triang|]. apply Rplus_le_compat.
    + rewrite !Rabs_mult, (Rabs_pos_eq r) by lra. assert (Rabs (cos w) <= 1) by (apply Rabs_le; apply COS_bound).
      pose proof (Rabs_pos (e n)). pose proof (Rabs_pos (cos w)). assert (r * Rabs (cos w) <= r) by nra. nra.
    + eapply Rle_trans; [apply nm_re|]. exact VB.
Qed.

(** ** The cascade as four stages *)
Lemma row_cascade t E w u v g (x : nat -> R) len : 0 < g ->
  let s n0 n1 := stage n0 n1 0 (-2 * cos w / E) (/ (E * E)) in
  cascade (N:=RN) (row_of t E w u v g) (map x (seq 0 len)) =
  map (s t (- (k_of w (-v) * t / E)) (s t (- (k_of w v * t / E)) (s t (- (k_of w (-u) * t / E))
        (s (t / g) (- (k_of w u * t / E) / g) x)))) (seq 0 len).
Proof.
  intros G s. unfold cascade. cbn [row_of nth RN ndiv nofZ]. change (num RN) with R. replace (0 / g) with 0 by (field; lra).
  change (0, 0) with (st (t / g) (- (k_of w u * t / E) / g) 0 (-2 * cos w / E) (/ (E * E)) x 0) at 1.
  rewrite (stage_list (t / g) _ 0 1 _ _ x len 0). fold (s (t / g) (- (k_of w u * t / E) / g)).
  set (y1 := s _ _ x).
  change (0, 0) with (st t (- (k_of w (-u) * t / E)) 0 (-2 * cos w / E) (/ (E * E)) y1 0) at 1.
  rewrite (stage_list t _ 0 1 _ _ y1 len 0). fold (s t (- (k_of w (-u) * t / E))).
  set (y2 := s _ _ y1).
  change (0, 0) with (st t (- (k_of w v * t / E)) 0 (-2 * cos w / E) (/ (E * E)) y2 0) at 1.
  rewrite (stage_list t _ 0 1 _ _ y2 len 0). fold (s t (- (k_of w v * t / E))).
  set (y3 := s _ _ y2).
  change (0, 0) with (st t (- (k_of w (-v) * t / E)) 0 (-2 * cos w / E) (/ (E * E)) y3 0) at 1.
  rewrite (stage_list t _ 0 1 _ _ y3 len 0). reflexivity.
Qed.
Lemma gain_pos t E w u v : 0 < t -> 1 < E -> 0 < gain_of t E w u v.
Proof.
  intros Ht HE. unfold gain_of.
  assert (PN := nm_nz _ (pole_nz E w HE)).
  assert (N1 := nm_nz _ (zero_nz t E w u Ht HE)). assert (N2 := nm_nz _ (zero_nz t E w (-u) Ht HE)).
  assert (N3 := nm_nz _ (zero_nz t E w v Ht HE)). assert (N4 := nm_nz _ (zero_nz t E w (-v) Ht HE)).
  apply Rdiv_lt_0_compat; repeat apply Rmult_lt_0_compat; auto.
Qed.
Lemma as_seq (l : list R) : map (fun n => nth n l 0) (seq 0 (List.length l)) = l.
Proof.
  induction l as [|a l IH]; [reflexivity|]. cbn [List.length seq map nth]. f_equal. rewrite <- seq_shift, map_map. exact IH.
Qed.

Lemma C63_stable rate f : (0 < rate)%Z -> 0 <= f -> exists K, 0 <= K /\
  forall (x : list R) X, (forall a, In a x -> Rabs a <= X) ->
  forall b, In b (cascade (N:=RN) (erb_row (N:=RN) rate f) x) -> Rabs b <= K * X.
Proof.
  intros Hr Hf. destruct (erb_row_of rate f Hr Hf) as (E & u & v & HE & ->).
  set (w := 2 * PI * f / IZR rate). set (t := / IZR rate).
  assert (Ht : 0 < t) by (apply Rinv_0_lt_compat; apply IZR_lt; auto).
  assert (G := gain_pos t E w u v Ht HE). set (g := gain_of t E w u v) in *.
  destruct (stage_bounded E w (t / g) (- (k_of w u * t / E) / g) HE) as (K1 & P1 & S1).
  destruct (stage_bounded E w t (- (k_of w (-u) * t / E)) HE) as (K2 & P2 & S2).
  destruct (stage_bounded E w t (- (k_of w v * t / E)) HE) as (K3 & P3 & S3).
  destruct (stage_bounded E w t (- (k_of w (-v) * t / E)) HE) as (K4 & P4 & S4).
  exists (K4 * (K3 * (K2 * K1))). split. { repeat apply Rmult_le_pos; auto. }
  intros x X HX b Hb. destruct x as [|x0 x'] eqn:EX; [destruct Hb|]. rewrite <- EX in *.
  assert (PX : 0 <= X). { apply Rle_trans with (Rabs x0); [apply Rabs_pos|]. apply HX. rewrite EX. left. auto. }
  assert (B0 : bounded X (fun n => nth n x 0)).
  { intros n. destruct (Nat.lt_ge_cases n (List.length x)) as [L|L]; [apply HX, nth_In, L|].
    rewrite nth_overflow, Rabs_R0 by exact L. exact PX. }
  rewrite <- (as_seq x), row_cascade in Hb by exact G. cbv zeta in Hb.
  apply in_map_iff in Hb. destruct Hb as (n & <- & _).
  apply S1 in B0; auto. apply S2 in B0; [|repeat apply Rmult_le_pos; auto].
  apply S3 in B0; [|repeat apply Rmult_le_pos; auto]. apply S4 in B0; [|repeat apply Rmult_le_pos; auto].
  specialize (B0 n). replace (K4 * (K3 * (K2 * K1)) * X) with (K4 * (K3 * (K2 * (K1 * X)))) by ring. exact B0.
Qed.

(** ** The output dies out after the end of the input *)
Lemma C63_dies rate f : (0 < rate)%Z -> 0 <= f -> forall (x : list R) eps, 0 < eps ->
  exists settled : nat, forall len k, (settled <= k < List.length x + len)%nat ->
  Rabs (nth k (cascade (N:=RN) (erb_row (N:=RN) rate f) (x ++ repeat 0 len)) 0) < eps.
Proof.
  intros Hr Hf x eps He. destruct (erb_row_of rate f Hr Hf) as (E & u & v & HE & ->).
  set (w := 2 * PI * f / IZR rate). set (t := / IZR rate).
  assert (Ht : 0 < t) by (apply Rinv_0_lt_compat; apply IZR_lt; auto).
  assert (G := gain_pos t E w u v Ht HE). set (g := gain_of t E w u v) in *.
  destruct (stage_tone E w (t / g) (- (k_of w u * t / E) / g) HE) as [p1 S1].
  destruct (stage_tone E w t (- (k_of w (-u) * t / E)) HE) as [p2 S2].
  destruct (stage_tone E w t (- (k_of w v * t / E)) HE) as [p3 S3].
  destruct (stage_tone E w t (- (k_of w (-v) * t / E)) HE) as [p4 S4].
  assert (T0 : tends_to_tone w (fun n => nth n x 0) 0 0).
  { intros e Pe. exists (List.length x). intros n L. rewrite nth_overflow by exact L. rewrite Rmult_0_l, Rminus_eq_0, Rabs_R0. exact Pe. }
  apply S1, S2, S3, S4 in T0. destruct (T0 eps He) as [n0 P]. exists n0. intros len k L.
  assert (EX : x ++ repeat 0 len = map (fun n => nth n x 0) (seq 0 (List.length x + len))).
  { rewrite seq_app, map_app, as_seq. f_equal. cbn [Nat.add].
    apply nth_ext with (d := 0) (d' := nth 0%nat x 0); [rewrite repeat_length, map_length, seq_length; reflexivity|].
    rewrite repeat_length. intros i Hi. rewrite nth_repeat.
    rewrite (map_nth (fun n => nth n x 0)), seq_nth by exact Hi. rewrite nth_overflow by lia. reflexivity. }
  rewrite EX, row_cascade by exact G. cbv zeta.
  match goal with |- Rabs (nth k (map ?y _) 0) < _ => rewrite (nth_indep _ 0 (y 0%nat)) by (rewrite map_length, seq_length; lia) end.
  rewrite map_nth, seq_nth by lia. cbn [Nat.add].
  specialize (P k (proj1 L)). rewrite !Rmult_0_r, Rmult_0_l, Rminus_0_r in P. exact P.
Qed.

(** ** The spectrogram *)
Lemma cascade_len row (x : list R) : List.length (cascade (N:=RN) row x) = List.length x.
Proof. unfold cascade. cbv zeta. rewrite !filter_length. reflexivity. Qed.
Lemma all_bands rate (l : list R) : (0 < rate)%Z -> exists K, 0 <= K /\ forall f, In f l -> 0 <= f ->
  forall (x : list R) X, (forall a, In a x -> Rabs a <= X) ->
  forall b, In b (cascade (N:=RN) (erb_row (N:=RN) rate f) x) -> Rabs b <= K * X.
Proof.
  intros Hr. induction l as [|f0 l (K & PK & IH)]. { exists 0. split; [lra|]. intros f []. }
  destruct (Rle_lt_dec 0 f0) as [F|F].
  - destruct (C63_stable rate f0 Hr F) as (K0 & P0 & H0). exists (K0 + K). split; [lra|].
    intros f [<-|I] Hf x X HX b Hb.
    + assert (PX : 0 <= X). { destruct x as [|x0 x']; [destruct Hb|]. apply Rle_trans with (Rabs x0); [apply Rabs_pos|]. apply HX. left. auto. }
      specialize (H0 x X HX b Hb). nra.
    + assert (PX : 0 <= X). { destruct x as [|x0 x']; [destruct Hb|]. apply Rle_trans with (Rabs x0); [apply Rabs_pos|]. apply HX. left. auto. }
      specialize (IH f I Hf x X HX b Hb). nra.
  - exists K. split; auto. intros f [<-|I] Hf; [lra|]. apply IH; auto.
Qed.
Lemma insert_In (x : R) l a : In a (insert_num (N:=RN) x l) -> a = x \/ In a l.
Proof.
  induction l as [|y l IH]; cbn [insert_num]; [intros [<-|[]]; auto|].
  destruct (nleb RN x y); intros [<-|H]; auto. { right. left. auto. } destruct (IH H) as [->|I]; auto. right. right. auto.
Qed.
Lemma sort_In (l c : list R) a : sort_num (N:=RN) l = Ok c -> In a c -> In a l.
Proof.
  unfold sort_num. destruct (_ && _)%bool; [discriminate|]. intros H. injection H as <-.
  induction l as [|y l IH]; cbn [fold_right]; auto. intros H. apply insert_In in H. destruct H as [->|H]; [left; auto|right; auto].
Qed.
Lemma Rsum_sq_bound (y : list R) B : 0 <= B -> (forall b, In b y -> Rabs b <= B) ->
  0 <= Rsum (map (fun v => v * v) y) <= INR (List.length y) * (B * B).
Proof.
  intros PB. induction y as [|a y IH]; intros H.
  - change (0 <= 0 <= 0 * (B * B)). lra.
  - assert (IH' := IH (fun b I => H b (or_intror I))). assert (Ha := H a (or_introl eq_refl)).
    cbn [map List.length]. rewrite S_INR. change (Rsum (a * a :: map (fun v => v * v) y)) with (a * a + Rsum (map (fun v => v * v) y)).
    assert (a * a <= B * B). { rewrite <- (Rabs_pos_eq (a * a)) by nra. rewrite Rabs_mult. apply Rmult_le_compat; auto using Rabs_pos. }
    nra.
Qed.

Lemma C63_spectrogram nb rate minf : (1 <= nb)%nat -> 0 <= minf ->
  minf < Rmin (IZR (if Nat.eqb nb 21 then 8000 else rate / 2)) (IZR rate / 2) ->
  exists K, 0 <= K /\ forall (fb fb' : Filterbank RN) s w sp X k j,
  fb_min_freq fb = minf -> sample_rate s = rate -> (1 <= win_size w)%Z -> (0 < hop_size w)%Z ->
  build nb fb s w = (fb', Ok sp) -> (forall a, In a (data_matrix s) -> Rabs a <= X) ->
  (k < nb)%nat -> (j < mcols (sp_data sp))%nat ->
  0 <= mget (sp_data sp) k j <= K * X.
Proof.
  intros Hn Hm Hu.
  assert (Hr : (0 < rate)%Z).
  { assert (minf < IZR rate / 2) by (eapply Rlt_le_trans; [exact Hu|apply Rmin_r]). apply lt_IZR. lra. }
  destruct (all_bands rate (snd (make_filters (N:=RN) nb rate minf (IZR (max_freq nb rate)))) Hr) as (K & PK & HK).
  exists K. split; auto. intros fb fb' s w sp X k j Hf Hs Hw Hp B HX Hk Hj.
  assert (U : fb_min_freq fb < Rmin (IZR (if Nat.eqb nb 21 then 8000 else sample_rate s / 2)) (IZR (sample_rate s) / 2)) by (rewrite Hf, Hs; exact Hu).
  assert (M0 : 0 <= fb_min_freq fb) by (rewrite Hf; exact Hm).
  destruct (C32_R nb fb fb' s w sp _ Hn M0 eq_refl U B) as (L & C0 & CI & _ & EN).
  pose proof (build_inv nb fb fb' s w sp B) as (_ & _ & cols & _ & _ & S).
  rewrite Hf, Hs in S. change (nofZ RN (max_freq nb rate)) with (IZR (max_freq nb rate)) in S.
  destruct (entry_cascade nb fb s w fb' sp k j Hp Hw B Hk Hj) as [LEN _].
  specialize (EN k j Hk Hp Hw Hj). cbv zeta in EN.
  set (c := center_freq_bands sp) in *. change (num RN) with R in *.
  assert (Hc : 0 <= nth k c 0).
  { rewrite <- Hf in Hm. destruct k as [|k']; [rewrite C0; exact Hm|]. apply Rle_trans with (nth 0%nat c 0); [rewrite C0; exact Hm|].
    left. apply CI. lia. }
  assert (IC : In (nth k c 0) (snd (make_filters (N:=RN) nb rate minf (IZR (max_freq nb rate))))).
  { apply (sort_In _ c); [exact S|]. apply nth_In. rewrite L. exact Hk. }
  rewrite Hs in EN. set (y := cascade _ _) in EN.
  assert (YB : forall b, In b y -> Rabs b <= K * X).
  { intros b Hb. apply (HK _ IC Hc) with (2 := Hb). intros a Ha. apply HX.
    unfold frame in Ha. apply In_firstn in Ha. eapply In_skipn. exact Ha. }
  assert (LY : zlen y = win_size w).
  { rewrite <- LEN. unfold zlen, y. rewrite !cascade_len. reflexivity. }
  assert (PX : 0 <= K * X).
  { destruct y as [|y0 y']. { unfold zlen in LY. cbn in LY. lia. } apply Rle_trans with (Rabs y0); [apply Rabs_pos|]. apply YB. left. auto. }
  assert (Q := Rsum_sq_bound y (K * X) PX YB). change (num RN) with R in *.
  assert (W : INR (List.length y) = IZR (win_size w)) by (rewrite INR_IZR_INZ; f_equal; exact LY).
  rewrite W in Q. assert (PW : 0 < IZR (win_size w)) by (apply IZR_lt; lia).
  rewrite EN. split; [apply sqrt_pos|].
  rewrite <- (sqrt_square (K * X)) by exact PX. apply sqrt_le_1_alt.
  apply Rmult_le_reg_r with (IZR (win_size w)); [exact PW|]. unfold Rdiv. rewrite Rmult_assoc, Rinv_l by lra. lra.
Qed.
